(** What the debugger of the example computer ought to do (C63). *)
From Coq Require Import ZArith Bool String List.
From Verif Require Import Base Parse Cpu Prog Trace Exec SpecIsa SpecInt SpecDebug RalMemory RalBus RalRunner.
Import ListNotations.
Open Scope list_scope.
Open Scope Z_scope.

Notation clk w := (tc_cur (rn_clock (w_run w))).
Section S.
Context {Q D : Type}.
Variables (FL : Flavour Q) (mask bits : Z) (dv : dev D).
Notation world := (world Q D).
Notation log := (list (ev Z unit unit)).
(** One [execute_next] without a debugger, ended normally or by HALT, with the devices told if a frame ending at [lim] is over then.
    [l]: what happens on the bus if the same is done with a debugger. *)
Definition tick (lim : Z) (w : world) (l : log) (w' : world) : Prop :=
  exists c r b k ds, run (ral_host mask bits dv 0) (execute_next FL false (w_cpu w)) (w_bus w) (rn_clock (w_run w)) = Some ((c, r), b, k, ds) /\
    runl (ral_host mask bits dv 0) (execute_next FL true (w_cpu w)) (w_bus w) (rn_clock (w_run w)) = Some ((c, r), b, k, l) /\
    (r = None \/ r = Some BHalt) /\
    w' = mkWorld (mkRunner k (if lim <=? tc_cur k then lim else rn_limit (w_run w)) (rn_frame (w_run w))) c
           (if lim <=? tc_cur k then bus_frame_end dv (tc_cur k) b else b) /\ w_bus w' <> None.
(** Any number of them: the machine before each, what happened, and the machine after it. *)
Inductive ticks (lim : Z) : world -> list (world * log * world) -> world -> Prop :=
| T_none w : ticks lim w [] w
| T_more w l w1 tr w' : tick lim w l w1 -> ticks lim w1 tr w' -> ticks lim w ((w, l, w1) :: tr) w'.
(** The clock holds unsigned numbers of 32 bits. *)
Definition fits (w : world) : Prop := 0 <= tc_hz (rn_clock (w_run w)) /\ 0 <= tc_cur (rn_clock (w_run w)) < 2 ^ 32.
(** Before the ticks, a second is taken off the clock if there is more than one to spare. *)
Definition second_over (w w' : world) : Prop :=
  let r := w_run w in let k := rn_clock r in
  if 2 * tc_hz k <? tc_cur k then
    w' = mkWorld (mkRunner (mkTClock (tc_cur k - tc_hz k) (tc_hz k)) (rn_limit r - tc_hz k) (rn_frame r)) (w_cpu w) (bus_next_second dv (tc_hz k) (w_bus w))
  else w' = w.

(** Then nothing overflows or panics. *)
Definition roomy (w w0 : world) : Prop :=
  let r := w_run w in let k := rn_clock r in 2 * tc_hz k < 2 ^ 32 /\ (2 * tc_hz k < tc_cur k -> tc_hz k <= rn_limit r) /\ w_bus w0 <> None.

(** An interrupt was accepted, and [v] was read from the device. *)
Definition answered (v : Z) (l : log) : Prop := exists t p t' w l', l = KTs t :: EIsIrq t true :: KIrq p t' :: EIrqData p t' v w :: l'.
Definition unanswered (l : log) : Prop := forall p t v w, ~ In (EIrqData p t v w) l.
Definition bare_prefix (l : log) : Prop := Forall silent l.
(** What is shown of an interrupt in mode 2: where it happened, where the vector is, and the vector. *)
Definition irq_shown (p vector lo hi : Z) (d : option CpuDebug) : Prop := d = Some (mkDebug [lo; hi] "IRQ#" p None (ASingle (DImm16 vector))).
(** What is shown of a step of the CPU from state [c] to state [c'], with [l] on the bus.  If the device makes the CPU execute IM 2 in mode 0,
    the report is taken for one of mode 2. *)
Definition shown (c c' : cpu Q) (l : log) (d : option CpuDebug) : Prop :=
  (exists v d0, answered v l /\ byte v /\ debugs l = [d0] /\ well_described d0 /\
     match im c with
     | Mode0 => im c' <> Mode2 -> d = Some d0
     | Mode1 => d = Some d0 /\ dcode d0 = [0xFF]
     | Mode2 => exists lo hi, dcode d0 = [0xC3; lo; hi] /\ irq_shown (pc c) (256 * get_i c + v) lo hi d
     end) \/
  (halt c = true /\ unanswered l /\ d = None) \/
  (halt c = false /\ unanswered l /\ exists d0 px, d = Some d0 /\ reported (pbyte px) (pc c) l d0 /\ dprefix d0 = px /\ (px = None \/ px = prefix c) /\ well_described d0).
(** What is shown of a prefix that is followed by another one. *)
Definition prefix_shown (px : Prefix) (p : Z) : CpuDebug := mkDebug (pbyte (Some px)) "NOP*" p (Some px) (ASingle (DReg16 (Some px) HL)).

(** The report is of a return, and its condition, if any, holds. *)
Definition names_ret (s : string) : Prop := (s = "RET" \/ s = "RETN" \/ s = "RETI")%string.
Definition returns (d : CpuDebug) (c : cpu Q) : Prop := names_ret (dmnemonic d) /\ forall cc, In (DCond cc) (operands (dargs d)) -> holds cc (get_flags c) = true.
Definition names_call (s : string) : Prop := (s = "CALL" \/ s = "RST")%string.
Definition calls (d : CpuDebug) (c : cpu Q) : Prop := names_call (dmnemonic d) /\ forall cc, In (DCond cc) (operands (dargs d)) -> holds cc (get_flags c) = true.
End S.

(** What [binary_search] does on [l]: an element equal to [p], or where to insert it. *)
Definition searches (search : list Z -> Z -> nat + nat) (l : list Z) : Prop := forall p,
  match search l p with
  | inl i => nth_error l i = Some p
  | inr i => (forall j x, (j < i)%nat -> nth_error l j = Some x -> x < p) /\ (forall j x, (i <= j)%nat -> nth_error l j = Some x -> p < x)
  end.
Definition ascending (l : list Z) : Prop := forall i j x y, (i <= j)%nat -> nth_error l i = Some x -> nth_error l j = Some y -> x <= y.
