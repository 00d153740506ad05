(** Properties C01 and C11. *)
From Coq Require Import ZArith Bool List String Lia.
From Verif Require Import Base Flags Ops Parse Cpu Flavours Prog Trace Internal Instr Exec Decode Range SafeRun Unreach Clock.
Import ListNotations.
Open Scope Z_scope.

(** A CPU with program counter [p], otherwise freshly reset, and what a run on [demo] gives:
    PC, F, memory byte at [a], clock, debugger calls. *)
Definition cpu0 (p : Z) : cpu qstate := set_pc p (cpu_new NMOS q_default).
Definition seen {A} (a : Z) (x : option (cpu qstate * A * mem * Z * list CpuDebug)) :=
  match x with Some (c, _, m, k, ds) => Some (pc c, get_flags c, m a, k, map dcode ds) | None => None end.

(** ** C01 *)
Theorem C01_execute_instruction : forall Q TS WB RB (FL : Flavour Q) dbg code (c : cpu Q),
  byte code -> wf c ->
  completes (TS:=TS) (WB:=WB) (RB:=RB) (execute_instruction FL dbg code c) (fun x => wf (fst x)).
Proof. intros Q TS WB RB. exact execute_instruction_completes. Qed.
Theorem C01_execute_next : forall Q TS WB RB (FL : Flavour Q) dbg (c : cpu Q), wf c ->
  completes (TS:=TS) (WB:=WB) (RB:=RB) (execute_next FL dbg c) (fun x => wf (fst x)).
Proof. intros Q TS WB RB. exact execute_next_completes. Qed.
Theorem C01_irq : forall Q TS WB RB (FL : Flavour Q) dbg (c : cpu Q), wf c ->
  completes (TS:=TS) (WB:=WB) (RB:=RB) (irq FL dbg c) (fun x => wf (fst x)).
Proof. intros Q TS WB RB. exact irq_completes. Qed.
Theorem C01_nmi : forall Q TS WB RB (FL : Flavour Q) (c : cpu Q), wf c ->
  completes (TS:=TS) (WB:=WB) (RB:=RB) (nmi FL c) (fun x => wf (fst x)).
Proof. intros Q TS WB RB. exact nmi_completes. Qed.
(** [execute_with_limit], for any number of executed instructions; with debug assertions the state must
    satisfy them at entry. *)
Theorem C01_execute_with_limit : forall Q TS WB RB (FL : Flavour Q) fuel (c : cpu Q), wf c ->
  completes (TS:=TS) (WB:=WB) (RB:=RB) (execute_with_limit FL false fuel c)
    (fun x => match x with Some y => wf (fst y) | None => True end).
Proof. intros Q TS WB RB. exact execute_with_limit_completes. Qed.
Theorem C01_execute_with_limit_debug_assertions : forall Q TS WB RB (FL : Flavour Q) fuel (c : cpu Q), wf c ->
  (halt c = true -> prefix c = None /\ last_ei c = false) ->
  completes (TS:=TS) (WB:=WB) (RB:=RB) (execute_with_limit FL true fuel c)
    (fun x => match x with Some y => wf (fst y) | None => True end).
Proof. intros Q TS WB RB. exact execute_with_limit_completes_da. Qed.
Theorem C01_reset : forall Q (FL : Flavour Q) (c : cpu Q), wf (reset FL c).
Proof. intros Q. exact wf_reset. Qed.
(** The [unreachable_unchecked] arms of the op-code field parsers. *)
Theorem C01_parser_values : forall code,
  In (Z.land code 7) reg8_values /\ In (Z.land code 0x30) rp_values /\
  In (Z.land code 0x38) y_values /\ In (Z.land code 0xC0) bitops_values.
Proof.
  exact (fun c => conj (reg8_values_ok c) (conj (rp_values_ok c) (conj (y_values_ok c) (bitops_values_ok c)))).
Qed.
Theorem C01_bit_number : forall code, 0 <= bitnum_of (bitops_from code) < 8.
Proof. exact bitops_num. Qed.
(** FD, then SET 7,(IY+5),B: a 4-byte instruction; memory byte 5 becomes 0x80. *)
Example C01_ex_ddcb :
  seen 5 (run (demo 0) (pbind (execute_next NMOS true (cpu0 100)) (fun x => execute_next NMOS true (fst x)))
     (mupd (mupd (mupd (mupd (fun _ => 0) 100 0xFD) 101 0xCB) 102 0x05) 103 0xF8) 0)
  = Some (104, 0xFF, 0x80, 23, [[0xFD;0xCB;0x05;0xF8]]).
Proof. reflexivity. Qed.
Example C01_ex_wf : wf (cpu0 100).
Proof. constructor; cbn; unfold word, byte; lia. Qed.
Print Assumptions C01_execute_instruction. Print Assumptions C01_execute_next.
Print Assumptions C01_irq. Print Assumptions C01_nmi. Print Assumptions C01_execute_with_limit.
Print Assumptions C01_execute_with_limit_debug_assertions. Print Assumptions C01_reset.
Print Assumptions C01_parser_values. Print Assumptions C01_bit_number.

(** ** C11 *)
Theorem C11_execute_instruction : forall Q TS WB RB (FL : Flavour Q) code (c : cpu Q), byte code -> wf c ->
  same_runs (TS:=TS) (WB:=WB) (RB:=RB) (execute_instruction FL true code c) (execute_instruction FL false code c).
Proof. intros Q TS WB RB. exact execute_instruction_same. Qed.
Theorem C11_execute_next : forall Q TS WB RB (FL : Flavour Q) (c : cpu Q), wf c ->
  same_runs (TS:=TS) (WB:=WB) (RB:=RB) (execute_next FL true c) (execute_next FL false c).
Proof. intros Q TS WB RB. exact execute_next_same. Qed.
Theorem C11_irq : forall Q TS WB RB (FL : Flavour Q) (c : cpu Q), wf c ->
  same_runs (TS:=TS) (WB:=WB) (RB:=RB) (irq FL true c) (irq FL false c).
Proof. intros Q TS WB RB. exact irq_same. Qed.
(** JR NZ not taken: the debugger's [read_debug] of the offset leaves time and PC as without debugger. *)
Example C11_ex :
  let m := mupd (mupd (fun _ => 0) 200 0x20) 201 0x7F in
  seen 0 (run (demo 0) (execute_next NMOS true (cpu0 200)) m 0) = Some (202, 0xFF, 0, 7, [[0x20; 0x7F]]) /\
  seen 0 (run (demo 0) (execute_next NMOS false (cpu0 200)) m 0) = Some (202, 0xFF, 0, 7, []).
Proof. split; reflexivity. Qed.
Print Assumptions C11_execute_instruction. Print Assumptions C11_execute_next. Print Assumptions C11_irq.
