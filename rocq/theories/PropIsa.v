(** Properties C07 and C08: every instruction, interrupt and step against the specification [SpecIsa]
    (effects and machine cycles) and the published times [SpecCycles], on every host. *)
From Coq Require Import ZArith Bool List Lia.
From Verif Require Import Base Flags Ops Parse Cpu Flavours Prog Trace Internal Instr Exec Range Clock ClockProofs
  SpecAlu SpecState SpecIsa SpecCycles IsaLink IsaCycles IsaRun.
Import ListNotations.
Open Scope Z_scope.

(** ** C07: effects; C08: machine cycles.  [follows p t]: on every host [p] completes and the bus accesses, the
    clock calls, the final state and the result are those of [t]. *)
Theorem C07_execute_instruction : forall Q T TS WB RB (FL : Flavour Q) (ch : chip T) absq, models FL ch absq ->
  forall dbg code (c : cpu Q), byte code -> wf c ->
  follows (TS:=TS) (WB:=WB) (RB:=RB) absq (execute_instruction FL dbg code c) (exec ch code (abs absq c)).
Proof. intros Q T TS WB RB FL ch absq M. exact (execute_instruction_follows FL ch absq (models_ok _ _ _ M)). Qed.
Theorem C07_execute_next : forall Q T TS WB RB (FL : Flavour Q) (ch : chip T) absq, models FL ch absq ->
  forall dbg (c : cpu Q), wf c ->
  follows (TS:=TS) (WB:=WB) (RB:=RB) absq (execute_next FL dbg c) (next ch (abs absq c)).
Proof. intros Q T TS WB RB FL ch absq M. exact (execute_next_follows FL ch absq (models_ok _ _ _ M)). Qed.
Theorem C07_irq : forall Q T TS WB RB (FL : Flavour Q) (ch : chip T) absq, models FL ch absq ->
  forall dbg (c : cpu Q), wf c ->
  runs (TS:=TS) (WB:=WB) (RB:=RB) (irq FL dbg c) (fun x bl cl =>
    if int_enabled (abs absq c)
    then exists r, snd x = Some r /\ as_spec absq (accept_int ch (abs absq c)) (fst x) r bl cl
    else x = (c, None) /\ bl = [] /\ cl = []).
Proof. intros Q T TS WB RB FL ch absq M. exact (irq_follows FL ch absq (models_ok _ _ _ M)). Qed.
Theorem C07_nmi : forall Q T TS WB RB (FL : Flavour Q) (ch : chip T) absq, models FL ch absq ->
  forall (c : cpu Q), wf c ->
  runs (TS:=TS) (WB:=WB) (RB:=RB) (nmi FL c) (fun x bl cl =>
    if nmi_enabled (abs absq c)
    then snd x = true /\ as_spec absq (accept_nmi ch (abs absq c)) (fst x) None bl cl
    else x = (c, false) /\ bl = [] /\ cl = []).
Proof. intros Q T TS WB RB FL ch absq M. exact (nmi_follows FL ch absq (models_ok _ _ _ M)). Qed.
(** When the memory is RAM (and the devices are arbitrary) every byte read is the one stored last, and the
    final memory is the initial one with the specified stores. *)
Theorem C07_ram : forall TS WB RB BS CK A (p : prog TS WB RB A) R (Hs : host TS WB RB BS CK) mo b k,
  runs p R -> ram_host Hs mo ->
  exists x b' k' l, runl Hs p b k = Some (x, b', k', l) /\ Forall data_byte (buses l) /\
    ram_log (mo b) (buses l) (mo b') /\ R x (buses l) (clocks l).
Proof. intros TS WB RB BS CK A. exact runs_ram. Qed.
(** The specification leaves no freedom: what the bus supplied determines the cycles and the final state. *)
Theorem C07_determined : forall WB RB X (t : cyc WB RB X) bl cl cl' x x',
  accepts t bl cl x -> accepts t bl cl' x' -> cl = cl' /\ x = x'.
Proof. intros WB RB X. exact acc_det. Qed.
(** LDI at 0x4000, HL at the last byte of memory, on NMOS. *)
Definition c_ldi : cpu qstate :=
  set_pc 0x4000 (set_hl 0xFFFF (set_de 0x8000 (set_bc 2 (set_af 0x1234 (cpu_new NMOS q_default))))).
Definition m_ldi : mem := mupd (mupd (mupd (fun _ => 0) 0x4000 0xED) 0x4001 0xA0) 0xFFFF 0x77.
Example C07_ex_ldi :
  match runl (demo 0) (execute_next NMOS false c_ldi) m_ldi 0 with
  | Some ((c', r), m, k, l) =>
      (buses l = [VOp 0x4000 1 0xED; VOp 0x4001 2 0xA0; VRd 0xFFFF 0x77; VWr 0x8000 0x77] /\
       clocks l = [TM1 0x4000; TM1 0x4001; TMreq 0xFFFF; TMreq 0x8000; TX 0x8000 2] /\
       (hl c', de c', bc c', get_flags c', k, m 0x8000, r) = (0, 0x8001, 1, 0x0C, 16, 0x77, None)) /\
      accepts (next nmos (abs q_modified c_ldi)) (buses l) (clocks l) (abs q_modified c', ONext)
  | None => False
  end.
Proof. vm_compute. repeat split. Qed.
Example C07_ex_models : models NMOS nmos q_modified /\ wf c_ldi /\ ram_host (demo 0) (fun m a => u8 (m a)).
Proof. split; [constructor|]. split; [constructor; cbn; unfold word, byte; lia|apply ram_demo]. Qed.
Definition C07_all := (@C07_execute_instruction, @C07_execute_next, @C07_irq, @C07_nmi, @C07_ram, @C07_determined).
Print Assumptions C07_all.

(** ** C08: total time, from the published tables, on a [TsCounter] of any width *)
Theorem C08_execute_next : forall Q T TS WB RB (FL : Flavour Q) (ch : chip T) absq, models FL ch absq ->
  forall dbg BS W (Hs : host TS WB RB BS Z) b k (c : cpu Q), wf c ->
  0 < bits W -> ts_clock W Hs -> in_type W k ->
  exists x b' l, runl Hs (execute_next FL dbg c) b k =
    Some (x, b', wrap W (k + (step_time (abs absq c) (buses l) + waits (buses l))), l).
Proof. intros Q T TS WB RB FL ch absq M. exact (execute_next_time FL ch absq (models_ok _ _ _ M)). Qed.
Theorem C08_execute_instruction : forall Q T TS WB RB (FL : Flavour Q) (ch : chip T) absq, models FL ch absq ->
  forall dbg code BS W (Hs : host TS WB RB BS Z) b k (c : cpu Q), byte code -> wf c ->
  0 < bits W -> ts_clock W Hs -> in_type W k ->
  exists x b' l, runl Hs (execute_instruction FL dbg code c) b k =
    Some (x, b', wrap W (k + (documented (prefix c) code (buses l) (abs absq c) - 4 + waits (buses l))), l).
Proof. intros Q T TS WB RB FL ch absq M. exact (execute_instruction_time FL ch absq (models_ok _ _ _ M)). Qed.
Theorem C08_irq : forall Q T TS WB RB (FL : Flavour Q) (ch : chip T) absq, models FL ch absq ->
  forall dbg BS W (Hs : host TS WB RB BS Z) b k (c : cpu Q), wf c -> is_irq_allowed c = true ->
  0 < bits W -> ts_clock W Hs -> in_type W k ->
  exists x b' l, runl Hs (irq FL dbg c) b k =
    Some (x, b', wrap W (k + (int_time (abs absq c) (buses l) + waits (buses l))), l).
Proof. intros Q T TS WB RB FL ch absq M. exact (irq_time FL ch absq (models_ok _ _ _ M)). Qed.
Theorem C08_nmi : forall Q T TS WB RB (FL : Flavour Q) (ch : chip T) absq, models FL ch absq ->
  forall BS W (Hs : host TS WB RB BS Z) b k (c : cpu Q), wf c -> is_nmi_allowed c = true ->
  0 < bits W -> ts_clock W Hs -> in_type W k ->
  exists x b' l, runl Hs (nmi FL c) b k = Some (x, b', wrap W (k + 11), l).
Proof. intros Q T TS WB RB FL ch absq M. exact (nmi_time FL ch absq (models_ok _ _ _ M)). Qed.
(** The clock calls themselves (kind, address, T-states, order) are those of the specification: C07. *)
Theorem C08_cycles : forall Q T TS WB RB (FL : Flavour Q) (ch : chip T) absq, models FL ch absq ->
  forall dbg (c : cpu Q), wf c ->
  runs (TS:=TS) (WB:=WB) (RB:=RB) (execute_next FL dbg c) (fun x bl cl =>
    as_spec absq (next ch (abs absq c)) (fst x) (snd x) bl cl /\ tsum cl = step_time (abs absq c) bl + waits bl).
Proof. intros Q T TS WB RB FL ch absq M. exact (execute_next_cycles FL ch absq (models_ok _ _ _ M)). Qed.
(** CALL NZ taken and not taken; SET 0,(IX+d) after its prefix. *)
Example C08_ex_call : forall a : arch bool, aF a = 0 ->
  documented (WB:=Z) (RB:=Z) None 0xC4 [] a = 17 /\ documented (WB:=Z) (RB:=Z) None 0xCC [] a = 10 /\
  documented (WB:=Z) (RB:=Z) (Some Xdd) 0xCB [VRd 1 5; VRd 2 0xC6] a = 19.
Proof. intros [] H. cbn in H. subst. repeat split. Qed.
Example C08_ex_clock : ts_clock U64 (demo 0) /\ in_type U64 5.
Proof. split; [apply ts_host_clock|]. unfold in_type. cbn. lia. Qed.
Definition C08_all := (@C08_execute_next, @C08_execute_instruction, @C08_irq, @C08_nmi, @C08_cycles).
Print Assumptions C08_all.
