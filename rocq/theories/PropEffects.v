(** Properties C40, C41, C42: accesses of untaken branches, break requests, memory stores. *)
From Coq Require Import ZArith Bool List Lia.
From Verif Require Import Base Flags Ops Parse Cpu Flavours Prog Trace Internal Instr Exec Range Clock Demo
  SpecAlu SpecState SpecIsa SpecCycles SpecStep SpecEffects IsaLink IsaRun Steps Effects EffectsRun.
Import ListNotations.
Open Scope Z_scope.

(** ** C40 *)
(** On every host: JR cc / DJNZ not taken makes no access to memory or a device after the op-code fetch, only the
    memory cycle of the displacement (and one T-state for DJNZ). *)
Theorem C40_not_taken : forall Q T TS WB RB (FL : Flavour Q) (ch : chip T) absq, models FL ch absq ->
  forall dbg code (c : cpu Q), byte code -> wf c -> not_taken code (get_flags c) (bc c / 256) = true ->
  forall BS CK (Hs : host TS WB RB BS CK) b k,
  exists c' b' k' l, runl Hs (execute_instruction FL dbg code c) b k = Some ((c', None), b', k', l) /\
    forallb (fun e => no_access e) l = true /\ pc c' = (pc c + 1) mod 65536 /\
    clocks l = (if code =? 0x10 then [TX (get_ir c) 1] else []) ++ [TMreq (pc c)].
Proof. intros Q T TS WB RB FL ch absq M. exact (not_taken_run FL ch absq (models_ok _ _ _ M)). Qed.
Example C40_ex :
  let c := set_bc 0x0100 (set_af 0x1200 (nm 0x2000)) in
  not_taken 0x10 (get_flags c) (bc c / 256) = true /\ not_taken 0x28 (get_flags c) (bc c / 256) = true /\
  not_taken 0x20 (get_flags c) (bc c / 256) = false /\
  match runl (demo 0) (execute_instruction NMOS false 0x10 c) m0 0, runl (demo 0) (execute_instruction NMOS false 0x20 c) m0 0 with
  | Some ((c', _), _, k, l), Some (_, _, k2, l2) =>
      bc c' = 0 /\ k = 4 /\ forallb (fun e => no_access e) l = true /\ k2 = 8 /\ forallb (fun e => no_access e) l2 = false
  | _, _ => False
  end.
Proof. vm_compute. repeat split. Qed.
Print Assumptions C40_not_taken.

(** ** C41 *)
(** The result of an instruction is what a device asked for during it (at most one does); otherwise it tells
    whether HALT was executed. *)
Theorem C41_execute_instruction : forall Q T TS WB RB (FL : Flavour Q) (ch : chip T) absq, models FL ch absq ->
  forall dbg code (c : cpu Q), byte code -> wf c ->
  runs (TS:=TS) (WB:=WB) (RB:=RB) (execute_instruction FL dbg code c) (fun x bl cl =>
    snd x = break_of bl (code =? 0x76) /\ (length (requests bl) <= 1)%nat).
Proof.
  intros Q T TS WB RB FL ch absq M dbg code c Hc Hw.
  exact (runs_mono _ _ _ (fun x bl cl _ H => proj1 H) (execute_instruction_eff FL ch absq (models_ok _ _ _ M) dbg code c Hc Hw)).
Qed.
Theorem C41_execute_next : forall Q T TS WB RB (FL : Flavour Q) (ch : chip T) absq, models FL ch absq ->
  forall dbg (c : cpu Q), wf c ->
  runs (TS:=TS) (WB:=WB) (RB:=RB) (execute_next FL dbg c) (fun x bl cl =>
    snd x = break_of bl (halts c bl) /\ (length (requests bl) <= 1)%nat).
Proof.
  intros Q T TS WB RB FL ch absq M dbg c Hw.
  exact (runs_mono _ _ _ (fun x bl cl _ H => proj1 H) (execute_next_eff FL ch absq (models_ok _ _ _ M) dbg c Hw)).
Qed.
Theorem C41_irq : forall Q T TS WB RB (FL : Flavour Q) (ch : chip T) absq, models FL ch absq ->
  forall dbg (c : cpu Q), wf c ->
  runs (TS:=TS) (WB:=WB) (RB:=RB) (irq FL dbg c) (fun x bl cl =>
    (snd x = if is_irq_allowed c then Some (break_of bl (halts c bl)) else None) /\
    (length (requests bl) <= 1)%nat /\ stored_at bl = step_stores c bl).
Proof. intros Q T TS WB RB FL ch absq M. exact (irq_eff FL ch absq (models_ok _ _ _ M)). Qed.
(** With the same devices never asking for a break ([mute]): same CPU, bus state, clock and machine cycles. *)
Theorem C41_same_instruction : forall Q TS WB RB (FL : Flavour Q) dbg code (c : cpu Q) BS CK (Hs : host TS WB RB BS CK) b k c' r b' k' l,
  runl Hs (execute_instruction FL dbg code c) b k = Some ((c', r), b', k', l) ->
  exists l', runl (mute Hs) (execute_instruction FL dbg code c) b k = Some ((c', mute_result r), b', k', l') /\ clocks l' = clocks l.
Proof. intros Q TS WB RB. exact execute_instruction_mute. Qed.
Theorem C41_same_next : forall Q TS WB RB (FL : Flavour Q) dbg (c : cpu Q) BS CK (Hs : host TS WB RB BS CK) b k c' r b' k' l,
  runl Hs (execute_next FL dbg c) b k = Some ((c', r), b', k', l) ->
  exists l', runl (mute Hs) (execute_next FL dbg c) b k = Some ((c', mute_result r), b', k', l') /\ clocks l' = clocks l.
Proof. intros Q TS WB RB. exact execute_next_mute. Qed.
Theorem C41_same_irq : forall Q TS WB RB (FL : Flavour Q) dbg (c : cpu Q) BS CK (Hs : host TS WB RB BS CK) b k c' r b' k' l,
  runl Hs (irq FL dbg c) b k = Some ((c', r), b', k', l) ->
  exists l', runl (mute Hs) (irq FL dbg c) b k = Some ((c', option_map mute_result r), b', k', l') /\ clocks l' = clocks l.
Proof. intros Q TS WB RB. exact irq_mute. Qed.
(** OTIR: the break is reported with HL, B, MEMPTR and PC already updated and the repetition cycles counted. *)
Example C41_ex :
  let c := set_bc 0x0210 (set_hl 0x8000 (nm 0x100)) in let m := poke 0x100 [0xED; 0xB3] (poke 0x8000 [0x5A] m0) in
  match runl (rig 0 0) (execute_next NMOS false c) m 0, runl (mute (rig 0 0)) (execute_next NMOS false c) m 0 with
  | Some ((c1, r1), _, k1, l1), Some ((c2, r2), _, k2, _) =>
      r1 = Some (BWriteIo 0x5A) /\ r2 = None /\ c1 = c2 /\ (hl c1, bc c1, pc c1, k1, k2) = (0x8001, 0x0110, 0x100, 21, 21) /\
      requests (buses l1) = [BWriteIo 0x5A]
  | _, _ => False
  end.
Proof. vm_compute. repeat split. Qed.
(** RETI. *)
Example C41_ex_reti :
  let c := set_sp 0x9000 (nm 0x100) in
  match runl (rig 0 0) (execute_next NMOS false c) (poke 0x100 [0xED; 0x4D] (poke 0x9000 [0x34; 0x12] m0)) 0 with
  | Some ((c1, r1), _, k1, _) => r1 = Some (BReti 77) /\ (pc c1, sp c1, k1) = (0x1234, 0x9002, 14)
  | None => False
  end.
Proof. vm_compute. repeat split. Qed.
Definition C41_all := (@C41_execute_instruction, @C41_execute_next, @C41_irq, @C41_same_instruction, @C41_same_next, @C41_same_irq).
Print Assumptions C41_all.

(** ** C42 *)
(** The addresses stored at, in order, from the tables [main_stores], [cb_stores], [ed_stores]. *)
Theorem C42_execute_instruction : forall Q T TS WB RB (FL : Flavour Q) (ch : chip T) absq, models FL ch absq ->
  forall dbg code (c : cpu Q), byte code -> wf c ->
  runs (TS:=TS) (WB:=WB) (RB:=RB) (execute_instruction FL dbg code c) (fun x bl cl =>
    stored_at bl = map (addr_of c (prefix c) (reads bl)) (instr_stores code (prefix c) (get_flags c) (opcodes bl) (reads bl))).
Proof.
  intros Q T TS WB RB FL ch absq M dbg code c Hc Hw.
  exact (runs_mono _ _ _ (fun x bl cl _ H => proj2 H) (execute_instruction_eff FL ch absq (models_ok _ _ _ M) dbg code c Hc Hw)).
Qed.
Theorem C42_execute_next : forall Q T TS WB RB (FL : Flavour Q) (ch : chip T) absq, models FL ch absq ->
  forall dbg (c : cpu Q), wf c ->
  runs (TS:=TS) (WB:=WB) (RB:=RB) (execute_next FL dbg c) (fun x bl cl => stored_at bl = step_stores c bl).
Proof.
  intros Q T TS WB RB FL ch absq M dbg c Hw.
  exact (runs_mono _ _ _ (fun x bl cl _ H => proj2 H) (execute_next_eff FL ch absq (models_ok _ _ _ M) dbg c Hw)).
Qed.
Theorem C42_irq : forall Q T TS WB RB (FL : Flavour Q) (ch : chip T) absq, models FL ch absq ->
  forall dbg (c : cpu Q), wf c ->
  runs (TS:=TS) (WB:=WB) (RB:=RB) (irq FL dbg c) (fun x bl cl => stored_at bl = step_stores c bl).
Proof.
  intros Q T TS WB RB FL ch absq M dbg c Hw.
  exact (runs_mono _ _ _ (fun x bl cl _ H => proj2 (proj2 H)) (irq_eff FL ch absq (models_ok _ _ _ M) dbg c Hw)).
Qed.
Theorem C42_nmi : forall Q T TS WB RB (FL : Flavour Q) (ch : chip T) absq, models FL ch absq ->
  forall (c : cpu Q), wf c ->
  runs (TS:=TS) (WB:=WB) (RB:=RB) (nmi FL c) (fun x bl cl => requests bl = [] /\
    stored_at bl = if is_nmi_allowed c then map (addr_of c None []) [L_push_hi; L_push_lo] else []).
Proof. intros Q T TS WB RB FL ch absq M. exact (nmi_eff FL ch absq (models_ok _ _ _ M)). Qed.
Theorem C42_at_most_two : forall WB RB Q (c : cpu Q) (bl : list (bev WB RB)), (length (step_stores c bl) <= 2)%nat.
Proof. intros WB RB Q. exact step_stores_two. Qed.
(** SET 0,(IX-1) with IX = 0 writes at 0xFFFF only. *)
Example C42_ex :
  let c := set_prefix (Some Xdd) (set_ix 0 (nm 0x100)) in
  match runl (demo 0) (execute_next NMOS false c) (poke 0x100 [0xCB; 0xFF; 0xC6] m0) 0 with
  | Some (_, m, k, l) => stored_at (buses l) = [0xFFFF] /\ step_stores c (buses l) = [0xFFFF] /\ m 0xFFFF = 1 /\ k = 19
  | None => False
  end.
Proof. vm_compute. repeat split. Qed.
(** CALL NZ at SP = 1 wraps around; not taken it stores nothing. *)
Example C42_ex_call :
  let c f := set_af f (set_sp 1 (nm 0x100)) in let m := poke 0x100 [0xC4; 0x34; 0x12] m0 in
  match runl (demo 0) (execute_next NMOS false (c 0)) m 0, runl (demo 0) (execute_next NMOS false (c 0x40)) m 0 with
  | Some (_, _, _, l1), Some (_, _, _, l2) => stored_at (buses l1) = [0; 0xFFFF] /\ stored_at (buses l2) = []
  | _, _ => False
  end.
Proof. vm_compute. repeat split. Qed.
Definition C42_all := (@C42_execute_instruction, @C42_execute_next, @C42_irq, @C42_nmi, @C42_at_most_two).
Print Assumptions C42_all.
