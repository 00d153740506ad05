(** What the orders of the example computer's debugger ought to come to (C65). *)
From Coq Require Import ZArith Bool List.
From Verif Require Import Base Parse Cpu Prog Trace SpecDebug RalMemory RalBus RalRunner SpecRalDebug.
Import ListNotations.
Open Scope list_scope.
Open Scope Z_scope.

Section S.
Context {Q D : Type}.
Variables (FL : Flavour Q) (mask bits : Z) (dv : dev D).
Notation world := (world Q D).
Notation log := (list (ev Z unit unit)).
(** Ticks of one frame, ending at [lim] or before, after a second is taken off if need be; [t] T-states. *)
Definition leg (w : world) (lim : Z) (tr : list (world * log * world)) (w' : world) (t : Z) : Prop :=
  exists w0, second_over dv w w0 /\ lim = rn_limit (w_run w0) + rn_frame (w_run w0) /\ ticks FL mask bits dv lim w0 tr w' /\ t = Z.max 0 (clk w' - clk w0).
Definition no_return (tr : list (world * log * world)) : Prop := forall a l b x, In (a, l, b) tr -> In x (debugs l) -> ~ returns x (w_cpu b).
Definition avoids (p : Z) (tr : list (world * log * world)) : Prop := forall a l b, In (a, l, b) tr -> pc (w_cpu a) <> p.
(** A frame without what is looked for, and a leg to it: an instruction that returns, the address [p]. *)
Definition miss_ret (w w' : world) (t : Z) : Prop := exists lim tr, leg w lim tr w' t /\ no_return tr /\ lim <= clk w' /\ tr <> [].
Definition hit_ret (w w' : world) (d : CpuDebug) (t : Z) : Prop :=
  exists lim tr w1 l, leg w lim (tr ++ [(w1, l, w')]) w' t /\ no_return tr /\ debugs l = [d] /\ returns d (w_cpu w').
Definition miss_pc (p : Z) (w w' : world) (t : Z) : Prop := exists lim tr, leg w lim tr w' t /\ avoids p tr /\ lim <= clk w' /\ tr <> [].
Definition hit_pc (p : Z) (w w' : world) (t : Z) : Prop := exists lim tr, leg w lim tr w' t /\ avoids p tr /\ pc (w_cpu w') = p.
(** Likewise for an interrupt; but it is passed over if there is nothing to show of it. *)
Definition quiet (tr : list (world * log * world)) : Prop := forall a l b, In (a, l, b) tr -> unanswered l.
Definition miss_int (w w' : world) (t : Z) : Prop :=
  exists lim tr w1 l, leg w lim (tr ++ [(w1, l, w')]) w' t /\ quiet tr /\ (unanswered l /\ lim <= clk w' \/ (exists v, answered v l) /\ (debugs l <> [] -> shown (w_cpu w1) (w_cpu w') l None)).
Definition hit_int (w w' : world) (d : CpuDebug) (t : Z) : Prop :=
  exists lim tr w1 l, leg w lim (tr ++ [(w1, l, w')]) w' t /\ quiet tr /\ (exists v, answered v l) /\ (debugs l <> [] -> shown (w_cpu w1) (w_cpu w') l (Some d)).
(** So many frames one after another. *)
Inductive misses (miss : world -> world -> Z -> Prop) : nat -> world -> world -> Z -> Prop :=
| M_none w : misses miss 0 w w 0
| M_more n w w1 w' t1 t : miss w w1 t1 -> misses miss n w1 w' t -> misses miss (S n) w w' (t1 + t).
(** It is found after [frames] frames at most, or not in [frames + 1] of them. *)
Definition to_return (frames : nat) (w w' : world) (d : option CpuDebug) (t : Z) : Prop :=
  exists m wk tk, misses miss_ret m w wk tk /\
    match d with Some d => (m <= frames)%nat /\ exists th, hit_ret wk w' d th /\ t = tk + th | None => m = S frames /\ wk = w' /\ t = tk end.
Definition to_int (frames : nat) (w w' : world) (d : option CpuDebug) (t : Z) : Prop :=
  exists m wk tk, misses miss_int m w wk tk /\
    match d with Some d => (m <= frames)%nat /\ exists th, hit_int wk w' d th /\ t = tk + th | None => m = S frames /\ wk = w' /\ t = tk end.
Definition to_pc (p : Z) (frames : nat) (w w' : world) (t : Z) : Prop :=
  exists m wk tk, misses (miss_pc p) m w wk tk /\ ((m <= frames)%nat /\ (exists th, hit_pc p wk w' th /\ t = tk + th) \/ m = S frames /\ wk = w' /\ t = tk).
End S.
