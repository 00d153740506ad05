(** Property C31: flavours differ only in the documented undocumented behaviour. *)
From Coq Require Import ZArith Bool List Lia.
From Verif Require Import Base Flags Ops Parse Cpu Flavours Prog Trace Internal Instr Exec Range Clock Demo
  SpecIsa SpecStep SpecFlavour IsaLink FlavDiff.
Import ListNotations.
Open Scope Z_scope.

(** ** C31 *)
(** Any two flavours, same state, same host: same bus, clock, result and host calls and the same CPU, unless the
    instruction is one of those listed in [odd] and [odd_ed]. *)
Theorem C31_execute_instruction : forall Q1 Q2 TS WB RB (FL1 : Flavour Q1) (FL2 : Flavour Q2) BS CK (H : host TS WB RB BS CK)
  dbg code (c1 : cpu Q1) (c2 : cpu Q2) b k c1' x b' k' l, byte code -> same_cpu c1 c2 ->
  runl H (execute_instruction FL1 dbg code c1) b k = Some ((c1', x), b', k', l) -> common code (opcodes (buses l)) ->
  exists c2', runl H (execute_instruction FL2 dbg code c2) b k = Some ((c2', x), b', k', l) /\ same_cpu c1' c2'.
Proof. intros Q1 Q2 TS WB RB FL1 FL2 BS CK H dbg code. exact (execute_instruction_flav' FL1 FL2 H dbg code). Qed.
Theorem C31_execute_next : forall Q1 Q2 TS WB RB (FL1 : Flavour Q1) (FL2 : Flavour Q2) BS CK (H : host TS WB RB BS CK)
  dbg (c1 : cpu Q1) (c2 : cpu Q2) b k c1' x b' k' l, same_cpu c1 c2 ->
  runl H (execute_next FL1 dbg c1) b k = Some ((c1', x), b', k', l) -> common_step c1 (buses l) ->
  exists c2', runl H (execute_next FL2 dbg c2) b k = Some ((c2', x), b', k', l) /\ same_cpu c1' c2'.
Proof. intros Q1 Q2 TS WB RB FL1 FL2 BS CK H dbg. exact (execute_next_flav' FL1 FL2 H dbg). Qed.
Theorem C31_irq : forall Q1 Q2 TS WB RB (FL1 : Flavour Q1) (FL2 : Flavour Q2) BS CK (H : host TS WB RB BS CK)
  dbg (c1 : cpu Q1) (c2 : cpu Q2) b k c1' x b' k' l, same_cpu c1 c2 ->
  runl H (irq FL1 dbg c1) b k = Some ((c1', x), b', k', l) -> common_step c1 (buses l) ->
  exists c2', runl H (irq FL2 dbg c2) b k = Some ((c2', x), b', k', l) /\ same_cpu c1' c2'.
Proof. intros Q1 Q2 TS WB RB FL1 FL2 BS CK H dbg. exact (irq_flav' FL1 FL2 H dbg). Qed.
Theorem C31_nmi : forall Q1 Q2 TS WB RB (FL1 : Flavour Q1) (FL2 : Flavour Q2) BS CK (H : host TS WB RB BS CK)
  (c1 : cpu Q1) (c2 : cpu Q2) b k c1' x b' k' l, same_cpu c1 c2 ->
  runl H (nmi FL1 c1) b k = Some ((c1', x), b', k', l) ->
  exists c2', runl H (nmi FL2 c2) b k = Some ((c2', x), b', k', l) /\ same_cpu c1' c2'.
Proof. intros Q1 Q2 TS WB RB FL1 FL2 BS CK H. exact (nmi_flav' FL1 FL2 H). Qed.
(** Any number of steps, each of them free of the exceptions. *)
Theorem C31_steps : forall Q1 Q2 TS WB RB (FL1 : Flavour Q1) (FL2 : Flavour Q2) BS CK (H : host TS WB RB BS CK)
  (c1 c1' : cpu Q1) b k b' k' l, common_run FL1 H c1 b k c1' b' k' l -> forall c2 : cpu Q2, same_cpu c1 c2 ->
  exists c2', common_run FL2 H c2 b k c2' b' k' l /\ same_cpu c1' c2'.
Proof. intros Q1 Q2 TS WB RB FL1 FL2 BS CK H. exact (common_run_flav FL1 FL2 H). Qed.
(** The exceptions. SCF and CCF: only bits 3 and 5 of F. *)
Theorem C31_scf_ccf : forall Q1 Q2 TS WB RB (FL1 : Flavour Q1) (FL2 : Flavour Q2) BS CK (H : host TS WB RB BS CK)
  dbg code (c1 : cpu Q1) (c2 : cpu Q2) b k c1' x b' k' l, In code scf_ccf -> same_cpu c1 c2 ->
  runl H (execute_instruction FL1 dbg code c1) b k = Some ((c1', x), b', k', l) ->
  exists c2', runl H (execute_instruction FL2 dbg code c2) b k = Some ((c2', x), b', k', l) /\ same_but_flags 0x28 c1' c2'.
Proof. intros Q1 Q2 TS WB RB FL1 FL2 BS CK H dbg code. exact (scf_ccf_flav' FL1 FL2 H dbg code). Qed.
(** LD (BC),A, LD (DE),A, LD (nn),A, OUT (n),A: only MEMPTR. *)
Theorem C31_memptr : forall Q1 Q2 TS WB RB (FL1 : Flavour Q1) (FL2 : Flavour Q2) BS CK (H : host TS WB RB BS CK)
  dbg code (c1 : cpu Q1) (c2 : cpu Q2) b k c1' x b' k' l, In code memptr_stores -> same_cpu c1 c2 ->
  runl H (execute_instruction FL1 dbg code c1) b k = Some ((c1', x), b', k', l) ->
  exists c2', runl H (execute_instruction FL2 dbg code c2) b k = Some ((c2', x), b', k', l) /\ same_but_memptr c1' c2'.
Proof. intros Q1 Q2 TS WB RB FL1 FL2 BS CK H dbg code. exact (memptr_flav' FL1 FL2 H dbg code). Qed.
(** OUT (C),0: only the byte sent; invisible to a device that ignores it. *)
Theorem C31_out_c_0 : forall Q1 Q2 TS WB RB (FL1 : Flavour Q1) (FL2 : Flavour Q2) BS CK (H : host TS WB RB BS CK)
  dbg (c1 : cpu Q1) (c2 : cpu Q2) b k c1' x b' k' l, same_cpu c1 c2 ->
  (forall b p v v' t, h_write_io H b p v t = h_write_io H b p v' t) ->
  runl H (execute_instruction FL1 dbg 0xED c1) b k = Some ((c1', x), b', k', l) -> opcodes (buses l) = [0x71] ->
  exists c2' l', runl H (execute_instruction FL2 dbg 0xED c2) b k = Some ((c2', x), b', k', l') /\ same_cpu c1' c2'.
Proof. intros Q1 Q2 TS WB RB FL1 FL2 BS CK H dbg. exact (out0_flav' FL1 FL2 H dbg). Qed.
(** LD A,I and LD A,R: only the P/V flag (and one more sampling of the interrupt line, here assumed to be free of
    side effects). *)
Theorem C31_ld_a_ir : forall Q1 Q2 TS WB RB (FL1 : Flavour Q1) (FL2 : Flavour Q2) BS CK (H : host TS WB RB BS CK)
  dbg (c1 : cpu Q1) (c2 : cpu Q2) b k c1' x b' k' l v, same_cpu c1 c2 ->
  (forall b t, fst (h_is_irq H b t) = b) ->
  runl H (execute_instruction FL1 dbg 0xED c1) b k = Some ((c1', x), b', k', l) ->
  opcodes (buses l) = [v] -> In v [0x57; 0x5F] ->
  exists c2' l', runl H (execute_instruction FL2 dbg 0xED c2) b k = Some ((c2', x), b', k', l') /\ same_but_flags 0x04 c1' c2'.
Proof. intros Q1 Q2 TS WB RB FL1 FL2 BS CK H dbg. exact (ld_a_ir_flav' FL1 FL2 H dbg). Qed.

(** NMOS and CMOS on ADD A,B / EX (SP),HL agree ... *)
Definition cm (p : Z) : cpu unit := set_pc p (cpu_new CMOS tt).
Definition bm (p : Z) : cpu qstate := set_pc p (cpu_new BM1 q_default).
Example C31_ex :
  let m := poke 0 [0xE3] (poke 0x8000 [0x34; 0x12] m0) in
  same_cpu (set_sp 0x8000 (nm 0)) (set_sp 0x8000 (cm 0)) /\
  match runl (demo 0) (execute_next NMOS false (set_sp 0x8000 (nm 0))) m 0,
        runl (demo 0) (execute_next CMOS false (set_sp 0x8000 (cm 0))) m 0 with
  | Some ((c1, _), _, k1, l1), Some ((c2, _), _, k2, l2) =>
      common_step (set_sp 0x8000 (nm 0)) (buses l1) /\ hl c1 = 0x1234 /\ same_cpu c1 c2 /\ k1 = 19 /\ k2 = 19 /\ l1 = l2
  | _, _ => False
  end.
Proof.
  vm_compute. repeat split; try discriminate. intros [H|[H|[H|[H|[H|[H|H]]]]]]; discriminate || contradiction.
Qed.
(** ... and the exceptions are real. *)
Example C31_ex_scf :
  let go c p := match runl (demo 0) p m0 0 with Some (x, _, _, _) => get_flags (fst x) | None => c end in
  (go (-1) (execute_instruction NMOS false 0x37 (set_af 0x28 (nm 0))),
   go (-1) (execute_instruction BM1 false 0x37 (set_af 0x28 (bm 0)))) = (0x29, 0x29) /\
  match runl (demo 0) (execute_instruction CMOS false 0x37 (set_af 0x28 (cm 0))) m0 0 with
  | Some (x, _, _, _) => get_flags (fst x) = 0x01 | None => False end.
Proof. vm_compute. repeat split. Qed.
Example C31_ex_memptr :
  let go (FL : Flavour qstate) := match runl (demo 0) (execute_instruction FL false 0x02 (set_acc 0x12 (set_bc 0x3456 (nm 0)))) m0 0 with
               | Some (x, _, _, _) => memptr (fst x) | None => -1 end in
  (go NMOS, go BM1) = (0x1257, 0x0057).
Proof. vm_compute. reflexivity. Qed.
Example C31_ex_out :
  match runl (rig 0 0) (execute_next NMOS false (nm 0)) (poke 0 [0xED; 0x71] m0) 0,
        runl (rig 0 0) (execute_next CMOS false (cm 0)) (poke 0 [0xED; 0x71] m0) 0 with
  | Some ((c1, x1), _, _, _), Some ((c2, x2), _, _, _) => x1 = Some (BWriteIo 0) /\ x2 = Some (BWriteIo 255) /\ same_cpu c1 c2
  | _, _ => False
  end.
Proof. vm_compute. repeat split. Qed.
Example C31_ex_ld_a_i :
  let go (FL : Flavour qstate) := match runl (rig 0 0) (execute_instruction FL false 0xED (set_iffs true true (nm 0))) (poke 0 [0x57] m0) 0 with
               | Some (x, _, _, _) => get_flags (fst x) | None => -1 end in
  (go NMOS, go BM1) = (0x41, 0x45).
Proof. vm_compute. reflexivity. Qed.
Definition C31_all := (@C31_execute_instruction, @C31_execute_next, @C31_irq, @C31_nmi, @C31_steps,
  @C31_scf_ccf, @C31_memptr, @C31_out_c_0, @C31_ld_a_ir).
Print Assumptions C31_all.
