(** Properties C10, C13, C14, C15, C38, C39: refresh register, prefixes, EI delay, flip-flops, HALT assertions. *)
From Coq Require Import ZArith Bool List Lia.
From Verif Require Import Base Flags Ops Parse Cpu Flavours Prog Trace Internal Instr Exec Range Clock Demo
  SpecState SpecIsa SpecCycles SpecStep SpecReach IsaLink IsaRun Steps IsaControl Control Reach.
Import ListNotations.
Open Scope Z_scope.

(** ** C10 *)
(** [m1s cl] counts the M1 and interrupt-acknowledge cycles; [code] was fetched before the call. *)
Theorem C10_execute_instruction : forall Q T TS WB RB (FL : Flavour Q) (ch : chip T) absq, models FL ch absq ->
  forall dbg code (c : cpu Q), byte code -> wf c ->
  runs (TS:=TS) (WB:=WB) (RB:=RB) (execute_instruction FL dbg code c) (fun x bl cl =>
    get_r (fst x) = if is_ld_r_a (code :: opcodes bl) then get_acc c else r_plus (m1s cl) (get_r c)).
Proof.
  intros Q T TS WB RB FL ch absq M dbg code c Hc Hw.
  exact (runs_mono _ _ _ (fun x bl cl _ H => ic_r _ _ _ _ _ H) (execute_instruction_ctl FL ch absq (models_ok _ _ _ M) dbg code c Hc Hw)).
Qed.
Theorem C10_execute_next : forall Q T TS WB RB (FL : Flavour Q) (ch : chip T) absq, models FL ch absq ->
  forall dbg (c : cpu Q), wf c ->
  runs (TS:=TS) (WB:=WB) (RB:=RB) (execute_next FL dbg c) (fun x bl cl => wf (fst x) /\
    get_r (fst x) = if is_ld_r_a (opcodes bl) then get_acc c else r_plus (m1s cl) (get_r c)).
Proof. intros Q T TS WB RB FL ch absq M. exact (execute_next_r FL ch absq (models_ok _ _ _ M)). Qed.
Theorem C10_irq : forall Q T TS WB RB (FL : Flavour Q) (ch : chip T) absq, models FL ch absq ->
  forall dbg (c : cpu Q), wf c ->
  runs (TS:=TS) (WB:=WB) (RB:=RB) (irq FL dbg c) (fun x bl cl => wf (fst x) /\
    get_r (fst x) = if is_ld_r_a (opcodes bl) then get_acc c else r_plus (m1s cl) (get_r c)).
Proof. intros Q T TS WB RB FL ch absq M. exact (irq_r FL ch absq (models_ok _ _ _ M)). Qed.
Theorem C10_nmi : forall Q T TS WB RB (FL : Flavour Q) (ch : chip T) absq, models FL ch absq ->
  forall (c : cpu Q), wf c ->
  runs (TS:=TS) (WB:=WB) (RB:=RB) (nmi FL c) (fun x bl cl => wf (fst x) /\
    get_r (fst x) = r_plus (m1s cl) (get_r c) /\ m1s cl = if is_nmi_allowed c then 1 else 0).
Proof. intros Q T TS WB RB FL ch absq M. exact (nmi_r FL ch absq (models_ok _ _ _ M)). Qed.
(** Any number of steps, as long as LD R,A is not among the op-codes fetched. *)
Theorem C10_steps : forall Q T TS WB RB (FL : Flavour Q) (ch : chip T) absq, models FL ch absq ->
  forall n (c : cpu Q), wf c ->
  runs (TS:=TS) (WB:=WB) (RB:=RB) (steps FL n c) (fun c' bl cl => wf c' /\
    (no_ld_r_a (opcodes bl) -> get_r c' = r_plus (m1s cl) (get_r c))).
Proof. intros Q T TS WB RB FL ch absq M. exact (steps_r FL ch absq (models_ok _ _ _ M)). Qed.
Theorem C10_add_r : forall Q d (c : cpu Q), wf c -> get_r (add_r d c) = r_plus d (get_r c).
Proof. intros Q. exact add_r_plus. Qed.
(** R = 0xFF: NOP then LDIR (one iteration): 1 + 2 fetches, 0xFF -> 0x82. *)
Example C10_ex :
  let c := set_r 0xFF (set_bc 1 (set_hl 0x100 (set_de 0x200 (nm 0)))) in
  match runl (demo 0) (steps NMOS 2 c) (poke 0 [0; 0xED; 0xB0] m0) 0 with
  | Some (c', _, _, l) => m1s (clocks l) = 3 /\ get_r c' = 0x82 /\ opcodes (buses l) = [0; 0xED; 0xB0]
  | None => False
  end.
Proof. vm_compute. repeat split. Qed.
Example C10_ex_ld_r_a :
  match runl (demo 0) (execute_next NMOS false (set_acc 0xB4 (nm 0))) (poke 0 [0xED; 0x4F] m0) 0 with
  | Some (x, _, _, l) => is_ld_r_a (opcodes (buses l)) = true /\ get_r (fst x) = 0xB4
  | None => False
  end.
Proof. vm_compute. repeat split. Qed.
Definition C10_all := (@C10_execute_instruction, @C10_execute_next, @C10_irq, @C10_nmi, @C10_steps, @C10_add_r).
Print Assumptions C10_all.

(** ** C13 *)
(** Any chain of prefixes leaves only the last one; nothing else changes and no host call is made. *)
Theorem C13_chain : forall Q TS WB RB (FL : Flavour Q) l (c : cpu Q), wf c ->
  (forall x, In x l -> x = 0xDD \/ x = 0xFD) -> l <> [] ->
  exists c', exec_list (TS:=TS) (WB:=WB) (RB:=RB) FL l c = Ret c' /\
    prefix c' = (if last l 0 =? 0xDD then Some Xdd else Some Yfd) /\
    last_ei c' = false /\ halt c' = false /\ wf c' /\
    (af c', bc c', de c', hl c', ix c', iy c', sp c', pc c', memptr c', ir c', r c') =
    (af c, bc c, de c, hl c, ix c, iy c, sp c, pc c, memptr c, ir c, r c) /\
    (af_alt c', bc_alt c', de_alt c', hl_alt c', im c', iff1 c', iff2 c') =
    (af_alt c, bc_alt c, de_alt c, hl_alt c, im c, iff1 c, iff2 c).
Proof. exact prefix_chain'. Qed.
(** While a prefix is pending interrupts are refused, and [execute_next] fetches without looking at the request. *)
Theorem C13_refused : forall Q TS WB RB (FL : Flavour Q) dbg (c : cpu Q), prefix c <> None ->
  irq (TS:=TS) (WB:=WB) (RB:=RB) FL dbg c = Ret (c, None) /\ nmi (TS:=TS) (WB:=WB) (RB:=RB) FL c = Ret (c, false).
Proof. exact prefix_refuses. Qed.
Theorem C13_execute_next : forall Q T TS WB RB (FL : Flavour Q) (ch : chip T) absq, models FL ch absq ->
  forall dbg (c : cpu Q), wf c -> prefix c <> None -> halt c = false ->
  runs (TS:=TS) (WB:=WB) (RB:=RB) (execute_next FL dbg c) (fun x bl cl => exists i v bl',
    bl = VOp (pc c) i v :: bl' /\
    prefix (fst x) = (if v =? 0xDD then Some Xdd else if v =? 0xFD then Some Yfd else None)).
Proof. intros Q T TS WB RB FL ch absq M. exact (after_prefix FL ch absq (models_ok _ _ _ M)). Qed.
(** A prefix is pending exactly after DD or FD. *)
Theorem C13_pending : forall Q T TS WB RB (FL : Flavour Q) (ch : chip T) absq, models FL ch absq ->
  forall dbg code (c : cpu Q), byte code -> wf c ->
  runs (TS:=TS) (WB:=WB) (RB:=RB) (execute_instruction FL dbg code c) (fun x bl cl =>
    prefix (fst x) = if code =? 0xDD then Some Xdd else if code =? 0xFD then Some Yfd else None).
Proof.
  intros Q T TS WB RB FL ch absq M dbg code c Hc Hw.
  exact (runs_mono _ _ _ (fun x bl cl _ H => ic_prefix _ _ _ _ _ H) (execute_instruction_ctl FL ch absq (models_ok _ _ _ M) dbg code c Hc Hw)).
Qed.
(** FD DD LD H,5 with an interrupt pending: IXH is loaded, then the interrupt is accepted. *)
Example C13_ex :
  match runl (rig 0 0xFF) (steps NMOS 4 (set_im Mode1 (nm 0x100))) (poke 0x100 [0xFB; 0xFD; 0xDD; 0x26; 5] m0) 0 with
  | Some (c', _, _, l) => (pc c', ix c', iy c', prefix c', is_irq_allowed c') = (0x105, 0x500, 0, None, true)
  | None => False
  end.
Proof. vm_compute. repeat split. Qed.
Definition C13_all := (@C13_chain, @C13_refused, @C13_execute_next, @C13_pending).
Print Assumptions C13_all.

(** ** C14 *)
(** Same CPU, bus, clock, result and host calls. *)
Theorem C14_ignored : forall Q TS WB RB (FL : Flavour Q) code (c : cpu Q),
  byte code -> uses_hl (decode code) = false -> wf c ->
  forall BS CK (Hs : host TS WB RB BS CK) b k,
  runl Hs (execute_instruction FL false code c) b k = runl Hs (execute_instruction FL false code (set_prefix None c)) b k.
Proof. intros Q TS WB RB. exact prefix_ignored. Qed.
(** LD A,(nn) ignores DD; LD A,(HL) does not. *)
Example C14_ex :
  let c := set_prefix (Some Xdd) (nm 0x100) in
  let m := poke 0x100 [0x02; 0x03] (poke 0x302 [0x99] m0) in
  (uses_hl (decode 0x3A), uses_hl (decode 0x7E)) = (false, true) /\
  match runl (demo 0) (execute_instruction NMOS false 0x3A c) m 0 with
  | Some ((c', _), _, k, _) => (get_acc c', k, prefix c') = (0x99, 9, None) | None => False end.
Proof. vm_compute. repeat split. Qed.
(** Without the condition the claim fails. *)
Example C14_ex_used :
  runl (demo 0) (execute_instruction NMOS false 0x24 (set_prefix (Some Xdd) (nm 0))) m0 0 <>
  runl (demo 0) (execute_instruction NMOS false 0x24 (nm 0)) m0 0.
Proof. vm_compute. discriminate. Qed.
Print Assumptions C14_ignored.

(** ** C15 *)
(** After EI both flip-flops are on and neither interrupt is accepted. *)
Theorem C15_ei : forall Q T TS WB RB (FL : Flavour Q) (ch : chip T) absq, models FL ch absq ->
  forall dbg (c : cpu Q), wf c ->
  runs (TS:=TS) (WB:=WB) (RB:=RB) (execute_instruction FL dbg 0xFB c) (fun x _ _ =>
    iff1 (fst x) = true /\ iff2 (fst x) = true /\ halt (fst x) = false /\ last_ei (fst x) = true /\
    irq (TS:=TS) (WB:=WB) (RB:=RB) FL dbg (fst x) = Ret (fst x, None) /\
    nmi (TS:=TS) (WB:=WB) (RB:=RB) FL (fst x) = Ret (fst x, false)).
Proof. intros Q T TS WB RB FL ch absq M. exact (ei_effect FL ch absq (models_ok _ _ _ M)). Qed.
(** The next instruction is then fetched without a look at the interrupt request; after it (unless it is EI or a
    prefix) a non-maskable interrupt is accepted, and a maskable one unless the instruction was DI. *)
Theorem C15_next : forall Q T TS WB RB (FL : Flavour Q) (ch : chip T) absq, models FL ch absq ->
  forall dbg (c : cpu Q), wf c -> last_ei c = true -> halt c = false ->
  runs (TS:=TS) (WB:=WB) (RB:=RB) (execute_next FL dbg c) (fun x bl cl => exists i v bl', bl = VOp (pc c) i v :: bl' /\
    (v <> 0xFB -> v <> 0xDD -> v <> 0xFD ->
     is_nmi_allowed (fst x) = true /\ is_irq_allowed (fst x) = iff1 (fst x) /\
     (iff1 c = true -> iff2 c = true -> iff1 (fst x) = negb (v =? 0xF3)))).
Proof. intros Q T TS WB RB FL ch absq M. exact (after_ei' FL ch absq (models_ok _ _ _ M)). Qed.
(** [execute_with_limit] entered after EI executes one instruction before it looks at the request. *)
Theorem C15_limit : forall Q TS WB RB (FL : Flavour Q) fuel (c : cpu Q), wf c -> last_ei c = true -> halt c = false ->
  forall BS CK (Hs : host TS WB RB BS CK) b k,
  match runl Hs (execute_with_limit FL false (S fuel) c) b k with
  | Some (_, _, _, l) => l = [KPast true] \/ exists t i t' v l', l = KPast false :: KM1 (pc c) t :: EOp (pc c) i t' v :: l'
  | None => False
  end.
Proof. exact limit_after_ei. Qed.
(** EI, NOP with the interrupt requested all the time, mode 1: accepted in the third step. *)
Example C15_ex :
  let go n := match runl (rig 0 0xFF) (steps NMOS n (set_im Mode1 (nm 0x100))) (poke 0x100 [0xFB; 0] m0) 0 with
              | Some (c', _, _, l) => Some (pc c', iff1 c') | None => None end in
  (go 1%nat, go 2%nat, go 3%nat) = (Some (0x101, true), Some (0x102, true), Some (0x38, false)).
Proof. vm_compute. reflexivity. Qed.
Definition C15_all := (@C15_ei, @C15_next, @C15_limit).
Print Assumptions C15_all.

(** ** C38 *)
Theorem C38_iff1_iff2 : forall Q T TS WB RB (FL : Flavour Q) (ch : chip T) absq, models FL ch absq ->
  forall q0 lim (c : cpu Q), reach TS WB RB FL q0 lim c -> iff1 c = true -> iff2 c = true.
Proof. intros Q T TS WB RB FL ch absq M q0 lim c H. exact (proj2 (reach_iffs FL ch absq (models_ok _ _ _ M) q0 lim c H)). Qed.
(** A reachable state with both on; the state with iff1 alone satisfies everything else (it is well-formed). *)
Example C38_ex : exists c, reach Z Z Z NMOS q_default true c /\ iff1 c = true.
Proof.
  destruct (runl (demo 0) (execute_instruction NMOS false 0xFB (cpu_new NMOS q_default)) m0 0) as [[[[[c' x] b'] k'] l]|] eqn:E;
    [|vm_compute in E; discriminate].
  exists c'. split; [|vm_compute in E; now injection E as <-].
  refine (r_exec _ _ _ _ _ _ false 0xFB _ _ _ (demo 0) m0 0 c' x b' k' l _ (r_reset _ _ _ _ _ _) E). unfold byte. lia.
Qed.
Example C38_ex_not_all : exists c : cpu qstate, wf c /\ iff1 c = true /\ iff2 c = false.
Proof. exists (set_iffs true false (nm 0)). split; [|split; reflexivity]. constructor; cbn; unfold word, byte; lia. Qed.
Print Assumptions C38_iff1_iff2.

(** ** C39 *)
(** Without [execute_with_limit] among the calls the assertions of z80.rs:494-495 hold in every reachable state. *)
Theorem C39_without_limit : forall Q T TS WB RB (FL : Flavour Q) (ch : chip T) absq, models FL ch absq ->
  forall q0 (c : cpu Q), reach TS WB RB FL q0 false c -> halt c = true -> prefix c = None /\ last_ei c = false.
Proof. intros Q T TS WB RB FL ch absq M q0 c H. exact (proj2 (reach_inv39 FL ch absq (models_ok _ _ _ M) q0 c H)). Qed.
(** With [execute_with_limit] they can fail: reset, EI, NOP, then a mode 0 interrupt supplying EI (0xFB), then
    HALT.  [execute_with_limit] called again panics when debug assertions are compiled in. *)
Definition m_39 : mem := poke 0 [0xFB; 0; 0x76] m0.
Theorem C39_refuted : exists c, reach Z Z Z NMOS q_default true c /\ halt c = true /\ last_ei c = true /\
  forall TS WB RB fuel, execute_with_limit (TS:=TS) (WB:=WB) (RB:=RB) NMOS true fuel c = Stuck.
Proof.
  destruct (runl (rig 100 0xFB) (execute_with_limit NMOS false 10 (cpu_new NMOS q_default)) m_39 0)
    as [[[[[[c' x]|] b'] k'] l]|] eqn:E; [|vm_compute in E; discriminate..].
  exists c'. split; [|vm_compute in E; injection E as <- _ _ _ _; repeat split].
  exact (r_limit _ _ _ _ _ _ 10 _ _ _ (rig 100 0xFB) m_39 0 c' x b' k' l eq_refl (r_reset _ _ _ _ _ _) E).
Qed.
Example C39_ex : exists c, reach Z Z Z NMOS q_default false c /\ halt c = true.
Proof.
  destruct (runl (demo 0) (execute_instruction NMOS false 0x76 (cpu_new NMOS q_default)) m0 0) as [[[[[c' x] b'] k'] l]|] eqn:E;
    [|vm_compute in E; discriminate].
  exists c'. split; [|vm_compute in E; now injection E as <-].
  refine (r_exec _ _ _ _ _ _ false 0x76 _ _ _ (demo 0) m0 0 c' x b' k' l _ (r_reset _ _ _ _ _ _) E). unfold byte. lia.
Qed.
Definition C39_all := (@C39_without_limit, C39_refuted).
Print Assumptions C39_all.
