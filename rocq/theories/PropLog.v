(** Property C09: every host access carries the time stamp of its own machine cycle. *)
From Coq Require Import ZArith Bool List Lia.
From Verif Require Import Base Flags Ops Parse Cpu Flavours Prog Trace Internal Instr Exec Range Clock SpecLog Stamp StampRun.
Import ListNotations.
Open Scope Z_scope.

Theorem C09_execute_instruction : forall Q TS WB RB (FL : Flavour Q) dbg code (c : cpu Q), byte code -> wf c ->
  logs (TS:=TS) (WB:=WB) (RB:=RB) (execute_instruction FL dbg code c) (fun _ l => stamped None l).
Proof. intros. exact (stm_logs _ _ (execute_instruction_stm _ _ _ _ H H0)). Qed.
Theorem C09_execute_next : forall Q TS WB RB (FL : Flavour Q) dbg (c : cpu Q), wf c ->
  logs (TS:=TS) (WB:=WB) (RB:=RB) (execute_next FL dbg c) (fun _ l => stamped None l).
Proof. intros. exact (stm_logs _ _ (execute_next_stm _ _ _ H)). Qed.
Theorem C09_irq : forall Q TS WB RB (FL : Flavour Q) dbg (c : cpu Q), wf c ->
  logs (TS:=TS) (WB:=WB) (RB:=RB) (irq FL dbg c) (fun _ l => stamped None l).
Proof. intros. exact (stm_logs _ _ (irq_stm _ _ _ H)). Qed.
Theorem C09_nmi : forall Q TS WB RB (FL : Flavour Q) (c : cpu Q), wf c ->
  logs (TS:=TS) (WB:=WB) (RB:=RB) (nmi FL c) (fun _ l => stamped None l).
Proof. intros. exact (stm_logs _ _ (nmi_stm _ _ H)). Qed.
(** The whole run of [execute_with_limit], however many instructions it executes. *)
Theorem C09_execute_with_limit : forall Q TS WB RB (FL : Flavour Q) fuel (c : cpu Q), wf c ->
  logs (TS:=TS) (WB:=WB) (RB:=RB) (execute_with_limit FL false fuel c) (fun _ l => stamped None l).
Proof.
  intros. exact (stm_logs _ _ (execute_with_limit_stm _ false _ _ H
    (fun (E : false = true) _ => False_ind _ (diff_false_true E)))).
Qed.
(** LD HL,(0xFFFF) from clock 100: the log in full. *)
Definition c_st : cpu unit := set_pc 0x4000 (set_bc 0x12FE (cpu_new CMOS tt)).
Definition m_st : mem := mupd (mupd (mupd (mupd (fun _ => 0) 0x4000 0x2A) 0x4001 0xFF) 0x4002 0xFF) 0 0x12.
Example C09_ex_ld :
  match runl (demo 0) (execute_next CMOS false c_st) m_st 100 with
  | Some (_, _, _, l) =>
      l = [KM1 0x4000 104; EOp 0x4000 1 104 0x2A; KMreq 0x4001 107; ERd16 0x4001 107 0xFFFF; KMreq 0x4002 110;
           KMreq 0xFFFF 113; ERd16 0xFFFF 113 0x1200; KMreq 0 116] /\ stamped None l
  | None => False
  end.
Proof. vm_compute. repeat split. Qed.
(** [stamped] is not vacuous: an access with another time stamp, address or cycle is refused. *)
Example C09_ex_bad :
  ~ stamped (TS:=Z) (WB:=Z) (RB:=Z) None [KM1 5 7; EOp 5 0 8 0] /\
  ~ stamped (TS:=Z) (WB:=Z) (RB:=Z) None [KMreq 5 7; EWr 6 0 7] /\
  ~ stamped (TS:=Z) (WB:=Z) (RB:=Z) None [KMreq 5 7; KNoMreq 5 1; ERd 5 7 0].
Proof. repeat split; cbn; intros H; decompose [and] H; discriminate. Qed.
Definition C09_all := (@C09_execute_instruction, @C09_execute_next, @C09_irq, @C09_nmi, @C09_execute_with_limit).
Print Assumptions C09_all.
