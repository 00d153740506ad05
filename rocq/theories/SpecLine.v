(** What the trigger lines of the CTC and its counters have to do. *)
From Coq Require Import ZArith Bool List.
From Verif Require Import Base RalBus RalCtc SpecCtc.
Import ListNotations.
Open Scope Z_scope.

(** What is done to a line: a pulse sent at [t] by the one end; the other end asks up to [t] for a rising or a falling edge, or lets go what
    came up to [t]; a second is taken off all times; the clock of the line is asked for an edge. *)
Inductive lop := LSend (t : Z) | LHear (rise : bool) (t : Z) | LDrop (t : Z) | LSecond (delta : Z) | LEdge (rise : bool) (t : Z).
Definition heard_edge (x : option (line * (bool * Z))) : option (line * option Z) :=
  match x with Some (l, (true, u)) => Some (l, Some u) | Some (l, (false, _)) => Some (l, None) | None => None end.
Definition line_do (cap : nat) (o : lop) (l : line) : option (line * option Z) :=
  match o with
  | LSend t => option_map (fun l => (l, None)) (tg_pulse (active cap) t l)
  | LHear r t => heard_edge (tg_next passive r t l)
  | LDrop t => option_map (fun x => (fst x, None)) (tg_purge passive t l)
  | LSecond d => match tg_second (active cap) d l with Some l => option_map (fun l => (l, None)) (tg_second passive d l) | None => None end
  | LEdge r t => heard_edge (tg_next (active cap) r t l)
  end.
Fixpoint line_ops (cap : nat) (ops : list lop) (l : line) : option (line * list (lop * option Z)) :=
  match ops with
  | [] => Some (l, [])
  | o :: ops => match line_do cap o l with Some (l, x) => option_map (fun r => (fst r, (o, x) :: snd r)) (line_ops cap ops l) | None => None end
  end.
(** The pulses sent, and those heard with the edge asked for, in the time of the first second; [base] is what was taken off so far. *)
Fixpoint sent (base : Z) (log : list (lop * option Z)) : list Z :=
  match log with
  | [] => []
  | (LSend t, _) :: log => base + t :: sent base log
  | (LSecond d, _) :: log => sent (base + d) log
  | _ :: log => sent base log
  end.
Fixpoint heard (base : Z) (log : list (lop * option Z)) : list (bool * Z) :=
  match log with
  | [] => []
  | (LHear r _, Some u) :: log => (r, base + u) :: heard base log
  | (LSecond d, _) :: log => heard (base + d) log
  | _ :: log => heard base log
  end.
(** A pulse is two T-states long. *)
Definition due (r : bool) (x : Z) : Z := if r then x else x + 2.
Definition on_time (x : Z) (h : bool * Z) : Prop := snd h = due (fst h) x.
Definition late (x : Z) (h : bool * Z) : Prop := due (fst h) x <= snd h.
(** What was heard is what was sent, in this order, though something may have been lost. *)
Inductive in_order (R : Z -> bool * Z -> Prop) : list Z -> list (bool * Z) -> Prop :=
  | no_more : forall s, in_order R s []
  | lost : forall x s h, in_order R s h -> in_order R (x :: s) h
  | comes_through : forall x y s h, R x y -> in_order R s h -> in_order R (x :: s) (y :: h).
Definition no_second (o : lop) : Prop := match o with LSecond _ => False | _ => True end.
Definition no_drop (o : lop) : Prop := match o with LDrop _ => False | _ => True end.

(** A counter with the constant [n] after [k] edges. *)
Definition counted (n k : Z) : Z := (span n - k mod span n) mod 256.
(** The times [p] are those of each [n]th edge of [e]. *)
Definition each_nth (n : Z) (e p : list Z) : Prop :=
  Z.of_nat (length p) = Z.of_nat (length e) / span n /\ forall j, (j < length p)%nat -> nth j p 0 = nth (Z.to_nat ((Z.of_nat j + 1) * span n - 1)) e 0.
(** A trigger that remembers the edges it gave and the pulses it was told to send. *)
Record tape (W : Type) := mkTape { tp_w : W; tp_edges : list Z; tp_pulses : list Z }.
Arguments mkTape {W}. Arguments tp_w {W}. Arguments tp_edges {W}. Arguments tp_pulses {W}.
Definition tape_trig {W} (g : trig W) : trig (tape W) :=
  mkTrig (fun r t w => option_map (fun x : W * (bool * Z) => (mkTape (fst x) (tp_edges w ++ match snd x with (true, u) => [u] | _ => [] end) (tp_pulses w), snd x)) (tg_next g r t (tp_w w)))
    (fun t w => option_map (fun x => (mkTape (fst x) (tp_edges w) (tp_pulses w), snd x)) (tg_purge g t (tp_w w)))
    (fun t w => option_map (fun x => mkTape x (tp_edges w) (tp_pulses w ++ [t])) (tg_pulse g t (tp_w w)))
    (fun t w => option_map (fun x => mkTape x (tp_edges w) (tp_pulses w)) (tg_second g t (tp_w w))).
(** Channel control words for a counter: reset, time constant follows, with or without interrupts, of rising edges or falling ones (bit 4). *)
Definition counter_word (v : Z) : Prop := Z.testbit v 0 = true /\ Z.testbit v 1 = true /\ Z.testbit v 2 = true /\ Z.testbit v 6 = true.
(** The clock of a line changes each [half] T-states; it was looked at up to its [m]th change, and up from an even one.  The [j]th edge of a
    kind after that. *)
Definition clocked (half m : Z) (l : line) : Prop := 0 < half /\ 0 <= m /\ ln_half l = half /\ ln_period l = m * half /\ ln_high l = Z.odd m.
Definition first_edge (rise : bool) (m : Z) : Z := if eqb (Z.odd (m + 1)) rise then m + 1 else m + 2.
Definition edge_time (half : Z) (rise : bool) (m j : Z) : Z := (first_edge rise m + 2 * j) * half.
