(** Properties C17-C20 and C24: interrupt responses, NMI and RETN, HALT, the stack. *)
From Coq Require Import ZArith Bool List Lia.
From Verif Require Import Base Flags Ops Parse Cpu Flavours Prog Trace Internal Instr Exec Range Clock Demo
  SpecState SpecIsa SpecCycles SpecStep SpecInt IsaLink IsaRun Steps Int.
Import ListNotations.
Open Scope Z_scope.

(** ** C17 *)
Theorem C17_mode1 : forall Q T TS WB RB (FL : Flavour Q) (ch : chip T) absq, models FL ch absq ->
  forall dbg (c : cpu Q), wf c -> is_irq_allowed c = true -> im c = Mode1 ->
  runs (TS:=TS) (WB:=WB) (RB:=RB) (irq FL dbg c) (fun x bl cl => exists v w,
    wf (fst x) /\ snd x = Some None /\ bl = VAck (return_to c) v w :: pushes c (return_to c) /\
    cl = ack (return_to c) w ++ push_cycles c /\ tsum cl = 13 + waits bl /\ after_int c (fst x) 0x38).
Proof. intros Q T TS WB RB FL ch absq M. exact (irq_mode1 FL ch absq (models_ok _ _ _ M)). Qed.
Theorem C17_mode2 : forall Q T TS WB RB (FL : Flavour Q) (ch : chip T) absq, models FL ch absq ->
  forall dbg (c : cpu Q), wf c -> is_irq_allowed c = true -> im c = Mode2 ->
  runs (TS:=TS) (WB:=WB) (RB:=RB) (irq FL dbg c) (fun x bl cl => exists v w l h,
    let vec := 256 * get_i c + v in
    wf (fst x) /\ snd x = Some None /\
    bl = VAck (return_to c) v w :: pushes c (return_to c) ++ [VRd vec l; VRd ((vec + 1) mod 65536) h] /\
    cl = ack (return_to c) w ++ push_cycles c ++ [TMreq vec; TMreq ((vec + 1) mod 65536)] /\
    tsum cl = 19 + waits bl /\ after_int c (fst x) (256 * h + l)).
Proof. intros Q T TS WB RB FL ch absq M. exact (irq_mode2 FL ch absq (models_ok _ _ _ M)). Qed.
(** On RAM: the word at I*256+vector, as memory is after the pushes. *)
Theorem C17_mode2_ram : forall Q T TS WB RB (FL : Flavour Q) (ch : chip T) absq, models FL ch absq ->
  forall dbg (c : cpu Q) BS CK (Hs : host TS WB RB BS CK) mo b k,
  ram_host Hs mo -> wf c -> is_irq_allowed c = true -> im c = Mode2 ->
  exists x b' k' l v w, runl Hs (irq FL dbg c) b k = Some (x, b', k', l) /\ byte v /\
    hd_error (buses l) = Some (VAck (return_to c) v w) /\
    pc (fst x) = mo b' (256 * get_i c + v) + 256 * mo b' ((256 * get_i c + v + 1) mod 65536) /\
    holds_at (mo b') ((sp c - 2) mod 65536) (return_to c) /\
    (forall a, a <> (sp c - 1) mod 65536 -> a <> (sp c - 2) mod 65536 -> mo b' a = mo b a).
Proof. intros Q T TS WB RB FL ch absq M dbg c BS CK. exact (irq_mode2_ram FL ch absq (models_ok _ _ _ M) dbg c). Qed.
(** Mode 0: the supplied byte is executed, from the return address, flip-flops and HALT cleared. *)
Theorem C17_mode0 : forall Q T TS WB RB (FL : Flavour Q) (ch : chip T) absq, models FL ch absq ->
  forall dbg (c : cpu Q), wf c -> is_irq_allowed c = true -> im c = Mode0 ->
  runs (TS:=TS) (WB:=WB) (RB:=RB) (irq FL dbg c) (fun x bl cl => exists v w bl' cl' r, byte v /\
    snd x = Some r /\ bl = VAck (return_to c) v w :: bl' /\ cl = ack (return_to c) w ++ cl' /\
    as_spec absq (exec ch v (abs absq (taken c))) (fst x) r bl' cl' /\
    tsum cl = documented None v bl' (abs absq c) + 2 + waits bl).
Proof. intros Q T TS WB RB FL ch absq M. exact (irq_mode0 FL ch absq (models_ok _ _ _ M)). Qed.
(** A halted CPU at the top of memory, SP wrapping, mode 1. *)
Example C17_ex :
  let c := set_halt true (set_sp 1 (set_iffs true true (set_im Mode1 (nm 0xFFFF)))) in
  match runl (rig 0 0xFF) (irq NMOS false c) (poke 0 [7; 7] m0) 100 with
  | Some (x, m, k, l) => pc (fst x) = 0x38 /\ sp (fst x) = 0xFFFF /\ halt (fst x) = false /\ m 0 = 0 /\ m 0xFFFF = 0 /\ k = 113
  | None => False
  end.
Proof. vm_compute. repeat split. Qed.
(** Mode 2 with the vector table overlapping the stack: jumps through the bytes just pushed. *)
Example C17_ex_mode2 :
  let c := set_i 0x40 (set_sp 0x4012 (set_iffs true true (set_im Mode2 (nm 0x1234)))) in
  match runl (rig 0 0x10) (irq NMOS false c) m0 100 with
  | Some (x, m, k, l) => pc (fst x) = 0x1234 /\ sp (fst x) = 0x4010 /\ k = 119
  | None => False
  end.
Proof. vm_compute. repeat split. Qed.
(** Mode 0 with RST 0x28 supplied: 11 + 2 T-states. *)
Example C17_ex_mode0 :
  let c := set_sp 0x8000 (set_iffs true true (set_im Mode0 (nm 0x1234))) in
  match runl (rig 0 0xEF) (irq NMOS false c) m0 100 with
  | Some (x, m, k, l) => pc (fst x) = 0x28 /\ m 0x7FFF = 0x12 /\ m 0x7FFE = 0x34 /\ iff1 (fst x) = false /\ k = 113
  | None => False
  end.
Proof. vm_compute. repeat split. Qed.
Definition C17_all := (@C17_mode1, @C17_mode2, @C17_mode2_ram, @C17_mode0).
Print Assumptions C17_all.

(** ** C18 *)
Theorem C18_nmi : forall Q T TS WB RB (FL : Flavour Q) (ch : chip T) absq, models FL ch absq ->
  forall (c : cpu Q), wf c -> is_nmi_allowed c = true ->
  runs (TS:=TS) (WB:=WB) (RB:=RB) (nmi FL c) (fun x bl cl =>
    wf (fst x) /\ snd x = true /\ bl = pushes c (return_to c) /\ cl = TM1 (return_to c) :: push_cycles c /\
    after_nmi c (fst x)).
Proof. intros Q T TS WB RB FL ch absq M. exact (nmi_effect FL ch absq (models_ok _ _ _ M)). Qed.
(** RETN (ED 45) at 0x66 on RAM, the stack not overwriting it. *)
Theorem C18_retn : forall Q T TS WB RB (FL : Flavour Q) (ch : chip T) absq, models FL ch absq ->
  forall dbg (c : cpu Q) BS CK (Hs : host TS WB RB BS CK) mo b k,
  ram_host Hs mo -> wf c -> is_nmi_allowed c = true ->
  mo b 0x66 = 0xED -> mo b 0x67 = 0x45 ->
  ~ In ((sp c - 1) mod 65536) [0x66; 0x67] -> ~ In ((sp c - 2) mod 65536) [0x66; 0x67] ->
  exists c' b' k' l, runl Hs (pbind (nmi FL c) (fun x => execute_next FL dbg (fst x))) b k = Some ((c', None), b', k', l) /\
    keeps c c' /\ pc c' = return_to c /\ sp c' = sp c /\ iff1 c' = iff2 c /\ iff2 c' = iff2 c.
Proof. intros Q T TS WB RB FL ch absq M dbg c BS CK. exact (nmi_retn FL ch absq (models_ok _ _ _ M) dbg c). Qed.
Example C18_ex :
  let c := set_halt true (set_sp 0 (set_iffs true true (nm 0x4321))) in
  match runl (demo 0) (pbind (nmi NMOS c) (fun x => execute_next NMOS false (fst x))) (poke 0x66 [0xED; 0x45] m0) 0 with
  | Some (x, m, k, l) => pc (fst x) = 0x4322 /\ sp (fst x) = 0 /\ iff1 (fst x) = true /\ halt (fst x) = false /\
      m 0xFFFF = 0x43 /\ m 0xFFFE = 0x22 /\ k = 11 + 14
  | None => False
  end.
Proof. vm_compute. repeat split. Qed.
Definition C18_all := (@C18_nmi, @C18_retn).
Print Assumptions C18_all.

(** ** C19 *)
(** HALT fetched by [execute_next], unless an interrupt was taken instead. *)
Theorem C19_execute_next : forall Q T TS WB RB (FL : Flavour Q) (ch : chip T) absq, models FL ch absq ->
  forall dbg (c : cpu Q), wf c -> halt c = false ->
  runs (TS:=TS) (WB:=WB) (RB:=RB) (execute_next FL dbg c) (fun x bl cl =>
    In (VIrq true) bl \/ exists r v bl', bl = (if is_irq_allowed c then [VIrq false] else []) ++ VOp (pc c) r v :: bl' /\
    (v = 0x76 -> wf (fst x) /\ snd x = Some BHalt /\ bl' = [] /\ cl = [TM1 (pc c)] /\ keeps c (fst x) /\ pc (fst x) = pc c /\
    sp (fst x) = sp c /\ memptr (fst x) = memptr c /\ iff1 (fst x) = iff1 c /\ iff2 (fst x) = iff2 c /\
    halt (fst x) = true /\ last_ei (fst x) = false /\ prefix (fst x) = None /\ get_r (fst x) = r_plus 1 (get_r c))).
Proof. intros Q T TS WB RB FL ch absq M. exact (next_halt FL ch absq (models_ok _ _ _ M)). Qed.
(** HALT handed to [execute_instruction]: PC is decremented. *)
Theorem C19_execute_instruction : forall Q T TS WB RB (FL : Flavour Q) (ch : chip T) absq, models FL ch absq ->
  forall dbg (c : cpu Q), wf c ->
  runs (TS:=TS) (WB:=WB) (RB:=RB) (execute_instruction FL dbg 0x76 c) (fun x bl cl =>
    wf (fst x) /\ snd x = Some BHalt /\ bl = [] /\ cl = [] /\ keeps c (fst x) /\ pc (fst x) = (pc c - 1) mod 65536 /\
    sp (fst x) = sp c /\ memptr (fst x) = memptr c /\ iff1 (fst x) = iff1 c /\ iff2 (fst x) = iff2 c /\
    halt (fst x) = true /\ last_ei (fst x) = false /\ prefix (fst x) = None /\ get_r (fst x) = get_r c).
Proof. intros Q T TS WB RB FL ch absq M. exact (exec_halt FL ch absq (models_ok _ _ _ M)). Qed.
(** [n] halted steps during which no interrupt was signalled: [add_r n] and [n] M1 cycles; the bus is at most asked
    for interrupts. *)
Theorem C19_halted_steps : forall Q TS WB RB (FL : Flavour Q) BS CK (Hs : host TS WB RB BS CK)
    n (c : cpu Q) b k c' b' k' l, wf c -> halt c = true ->
  runl Hs (steps FL n c) b k = Some (c', b', k', l) -> ~ In (VIrq true) (buses l) ->
  c' = add_r (Z.of_nat n) c /\ clocks l = repeat (TM1 (pc c)) n /\
  buses l = (if is_irq_allowed c then repeat (VIrq false) n else []) /\ (is_irq_allowed c = false -> b' = b).
Proof. intros Q TS WB RB FL BS CK. exact (halted_run FL). Qed.
(** HALT at 0x200, then 300 halted steps: R wraps. *)
Example C19_ex :
  match runl (demo 0) (steps NMOS 301 (nm 0x200)) (poke 0x200 [0x76] m0) 0 with
  | Some (c', _, k, l) => pc c' = 0x200 /\ halt c' = true /\ get_r c' = 301 mod 128 /\ k = 301 * 4 /\ ~ In (VIrq true) (buses l)
  | None => False
  end.
Proof. vm_compute. repeat split. intuition discriminate. Qed.
Definition C19_all := (@C19_execute_next, @C19_execute_instruction, @C19_halted_steps).
Print Assumptions C19_all.

(** ** C20: false.  After [halt()] an interrupt returns one byte further than after HALT through
    [execute_instruction], always. *)
Theorem C20_halt_method : forall Q T TS WB RB (FL : Flavour Q) (ch : chip T) absq, models FL ch absq ->
  forall dbg (c : cpu Q), wf c -> is_irq_allowed c = true -> im c <> Mode0 ->
  runs (TS:=TS) (WB:=WB) (RB:=RB) (irq FL dbg (do_halt c)) (fun x bl cl => stores bl = pushed_at c ((pc c + 1) mod 65536)).
Proof. intros Q T TS WB RB FL ch absq M. exact (halt_api_irq FL ch absq (models_ok _ _ _ M)). Qed.
Theorem C20_halt_instruction : forall Q T TS WB RB (FL : Flavour Q) (ch : chip T) absq, models FL ch absq ->
  forall dbg (c : cpu Q), wf c -> iff1 c = true -> im c <> Mode0 ->
  runs (TS:=TS) (WB:=WB) (RB:=RB) (pbind (execute_instruction FL dbg 0x76 c) (fun x => irq FL dbg (fst x)))
    (fun x bl cl => stores bl = pushed_at c (pc c)).
Proof. intros Q T TS WB RB FL ch absq M. exact (halt_instr_irq FL ch absq (models_ok _ _ _ M)). Qed.
Theorem C20_refuted : exists (c : cpu qstate) x m k l x' m' k' l', is_irq_allowed c = true /\
  runl (rig 0 0xFF) (irq NMOS false (do_halt c)) m0 0 = Some (x, m, k, l) /\
  runl (rig 0 0xFF) (pbind (execute_instruction NMOS false 0x76 c) (fun x => irq NMOS false (fst x))) m0 0 = Some (x', m', k', l') /\
  stores (buses l) = [(0x7FFF, 0x01); (0x7FFE, 0x01)] /\ stores (buses l') = [(0x7FFF, 0x01); (0x7FFE, 0x00)].
Proof.
  exists (set_sp 0x8000 (set_iffs true true (set_im Mode1 (nm 0x100)))).
  do 8 eexists. split; [reflexivity|]. split; [vm_compute; reflexivity|]. split; [vm_compute; reflexivity|].
  split; vm_compute; reflexivity.
Qed.
Definition C20_all := (@C20_halt_method, @C20_halt_instruction, @C20_refuted).
Print Assumptions C20_all.

(** ** C24 *)
(** PUSH number [n] under the pending prefix, then POP number [m] under prefix [px]. *)
Theorem C24_push_pop : forall Q T TS WB RB (FL : Flavour Q) (ch : chip T) absq, models FL ch absq ->
  forall dbg (c : cpu Q) n m px BS CK (Hs : host TS WB RB BS CK) mo b k,
  ram_host Hs mo -> wf c -> 0 <= n < 4 -> 0 <= m < 4 ->
  exists c' b' k' l, runl Hs (pbind (execute_instruction FL dbg (0xC5 + 16 * n) c)
    (fun x => execute_instruction FL dbg (0xC1 + 16 * m) (set_prefix px (fst x)))) b k = Some ((c', None), b', k', l) /\
    only_pair px m (pair (prefix c) n c) c c' /\
    (forall a, a <> (sp c - 1) mod 65536 -> a <> (sp c - 2) mod 65536 -> mo b' a = mo b a).
Proof. intros Q T TS WB RB FL ch absq M dbg c n m px BS CK. exact (push_pop FL ch absq (models_ok _ _ _ M) dbg c n m px). Qed.
(** PC is at the operand of CALL when [execute_instruction] is called. *)
Theorem C24_call : forall Q T TS WB RB (FL : Flavour Q) (ch : chip T) absq, models FL ch absq ->
  forall dbg (c : cpu Q), wf c ->
  back FL dbg c ((pc c + 2) mod 65536) (execute_instruction (TS:=TS) (WB:=WB) (RB:=RB) FL dbg 0xCD c) fst.
Proof. intros Q T TS WB RB FL ch absq M. exact (call_ret FL ch absq (models_ok _ _ _ M)). Qed.
Theorem C24_rst : forall Q T TS WB RB (FL : Flavour Q) (ch : chip T) absq, models FL ch absq ->
  forall dbg (c : cpu Q) n, wf c -> 0 <= n < 8 ->
  back FL dbg c (pc c) (execute_instruction (TS:=TS) (WB:=WB) (RB:=RB) FL dbg (0xC7 + 8 * n) c) fst.
Proof. intros Q T TS WB RB FL ch absq M. exact (rst_ret FL ch absq (models_ok _ _ _ M)). Qed.
Theorem C24_irq : forall Q T TS WB RB (FL : Flavour Q) (ch : chip T) absq, models FL ch absq ->
  forall dbg (c : cpu Q), wf c -> is_irq_allowed c = true -> im c <> Mode0 ->
  back FL dbg c (return_to c) (irq (TS:=TS) (WB:=WB) (RB:=RB) FL dbg c) fst.
Proof. intros Q T TS WB RB FL ch absq M. exact (irq_ret FL ch absq (models_ok _ _ _ M)). Qed.
Theorem C24_nmi : forall Q T TS WB RB (FL : Flavour Q) (ch : chip T) absq, models FL ch absq ->
  forall dbg (c : cpu Q), wf c -> is_nmi_allowed c = true ->
  back FL dbg c (return_to c) (nmi (TS:=TS) (WB:=WB) (RB:=RB) FL c) fst.
Proof. intros Q T TS WB RB FL ch absq M. exact (nmi_ret FL ch absq (models_ok _ _ _ M)). Qed.
(** PUSH IY; POP AF with SP = 1, i.e. storing at 0 and 0xFFFF. *)
Example C24_ex :
  let c := set_prefix (Some Yfd) (set_iy 0xABCD (set_sp 1 (nm 0))) in
  match runl (demo 0) (pbind (execute_instruction NMOS false (0xC5 + 16 * 2) c)
    (fun x => execute_instruction NMOS false (0xC1 + 16 * 3) (set_prefix None (fst x)))) m0 0 with
  | Some (x, m, k, l) => af (fst x) = 0xABCD /\ sp (fst x) = 1 /\ m 0 = 0xAB /\ m 0xFFFF = 0xCD
  | None => False
  end.
Proof. vm_compute. repeat split. Qed.
Example C24_ex_call :
  let c := set_sp 1 (nm 0x7000) in
  match runl (demo 0) (pbind (execute_instruction NMOS false 0xCD c) (fun x => execute_instruction NMOS false 0xC9 (fst x)))
    (poke 0x7000 [0x34; 0x12] m0) 0 with
  | Some (x, m, k, l) => pc (fst x) = 0x7002 /\ sp (fst x) = 1 /\ m 0 = 0x70 /\ m 0xFFFF = 0x02
  | None => False
  end.
Proof. vm_compute. repeat split. Qed.
Definition C24_all := (@C24_push_pop, @C24_call, @C24_rst, @C24_irq, @C24_nmi).
Print Assumptions C24_all.
