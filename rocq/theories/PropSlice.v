(** Property C47: a run of [execute_with_limit] may be cut into slices. *)
From Coq Require Import ZArith Bool List Lia.
From Verif Require Import Base Flags Ops Parse Cpu Flavours Prog Trace Internal Instr Exec Range Clock Demo
  SpecAlu SpecState SpecIsa SpecStep SpecReach SpecLog SpecLoop SpecSlice IsaLink IsaRun Reach Drive Loop Slices.
Import ListNotations.
Open Scope Z_scope.

(** Single instructions and interrupts never look at the limit, on any host.  Without a debugger nothing is done for one, except
    that DJNZ and JR cc (not jumping) look at their displacement with [read_debug]. *)
Theorem C47_quiet : forall Q TS WB RB (FL : Flavour Q) dbg (c : cpu Q), wf c ->
  (forall code, byte code -> logs (TS:=TS) (WB:=WB) (RB:=RB) (execute_instruction FL dbg code c)
     (fun _ l => Forall (quiet dbg (fun a => In code rel_cond /\ a = pc c)) l)) /\
  logs (TS:=TS) (WB:=WB) (RB:=RB) (execute_next FL dbg c) (fun _ l => Forall (quiet dbg (fun _ => True)) l) /\
  logs (TS:=TS) (WB:=WB) (RB:=RB) (irq FL dbg c) (fun _ l => Forall (quiet dbg (fun _ => True)) l) /\
  logs (TS:=TS) (WB:=WB) (RB:=RB) (nmi FL c) (fun _ l => Forall (quiet false (fun _ => True)) l).
Proof. exact @quiet_logs. Qed.
(** [read_debug] is called without a debugger: JR NZ with Z set. *)
Theorem C47_read_debug_refuted : exists (m : mem) (c c' : cpu qstate) m' k' l, wf c /\
  runl (demo 99) (execute_next NMOS false c) m 0 = Some ((c', None), m', k', l) /\ In (ERdDebug 0x101 7) l.
Proof.
  exists (poke 0x100 [0x20; 7] m0), (set_af 0x0040 (nm 0x100)). do 4 eexists.
  split; [constructor; cbn; unfold word, byte; lia|]. split; [vm_compute; reflexivity|]. cbn. tauto.
Qed.
(** On any host whose interrupt line does not change by being looked at: a call that returned [Ok], then one with a later
    limit, ends as one call with the later limit does, with the same host calls in the same order apart from the looks at the limit
    and at the interrupt line.  Both directions; and a call that breaks would have broken in the same way with the later limit. *)
Theorem C47_slices : forall Q T TS WB RB (FL : Flavour Q) (ch : chip T) absq, models FL ch absq ->
  forall BS CK (H : host TS WB RB BS CK), irq_pure H -> forall p1 p2, later p1 p2 ->
  forall da n1 (c : cpu Q) b k c1 r1 b1 k1 l1, wf c -> (halt c = true -> prefix c = None /\ last_ei c = false) ->
  runl (limited p1 H) (execute_with_limit FL da n1 c) b k = Some (Some (c1, r1), b1, k1, l1) -> ~ Exists fb_ack l1 ->
  match r1 with
  | None =>
      (forall n2 c2 r b2 k2 l2,
       runl (limited p2 H) (execute_with_limit FL da n2 c1) b1 k1 = Some (Some (c2, r), b2, k2, l2) -> ~ Exists fb_ack l2 ->
       exists n l, runl (limited p2 H) (execute_with_limit FL da n c) b k = Some (Some (c2, r), b2, k2, l) /\
         actions l = actions l1 ++ actions l2) /\
      (forall n c2 r b2 k2 l,
       runl (limited p2 H) (execute_with_limit FL da n c) b k = Some (Some (c2, r), b2, k2, l) -> ~ Exists fb_ack l ->
       exists n2 l2, runl (limited p2 H) (execute_with_limit FL da n2 c1) b1 k1 = Some (Some (c2, r), b2, k2, l2) /\
         actions l = actions l1 ++ actions l2)
  | Some e =>
      exists n l, runl (limited p2 H) (execute_with_limit FL da n c) b k = Some (Some (c1, Some e), b1, k1, l) /\
        actions l = actions l1
  end.
Proof.
  intros Q T TS WB RB FL ch absq M BS CK H PU p1 p2 LT da n1 c b k c1 [e|] b1 k1 l1 W I E F.
  - exact (slice_break FL ch absq (models_ok _ _ _ M) H PU p1 p2 LT da n1 c b k c1 e b1 k1 l1 (conj W I) E F).
  - split.
    + exact (slice_then FL ch absq (models_ok _ _ _ M) H PU p1 p2 LT da n1 c b k c1 b1 k1 l1 (conj W I) E F).
    + exact (slice_back FL ch absq (models_ok _ _ _ M) H PU p1 p2 LT da n1 c b k c1 b1 k1 l1 (conj W I) E F).
Qed.
(** Any number of calls, all with limits not later than the last one's: one call would have done. *)
Theorem C47_frames : forall Q T TS WB RB (FL : Flavour Q) (ch : chip T) absq, models FL ch absq ->
  forall BS CK (H : host TS WB RB BS CK), irq_pure H ->
  forall p da ps (c : cpu Q) b k c' r b' k' l, wf c -> (halt c = true -> prefix c = None /\ last_ei c = false) ->
  Forall (fun q => later q p) ps -> frames FL H da (ps ++ [p]) c b k c' r b' k' l -> ~ Exists fb_ack l ->
  exists n l', runl (limited p H) (execute_with_limit FL da n c) b k = Some (Some (c', r), b', k', l') /\
    actions l' = actions l.
Proof.
  intros Q T TS WB RB FL ch absq M BS CK H PU p da ps c b k c' r b' k' l W I.
  exact (frames_one FL ch absq (models_ok _ _ _ M) H PU p da ps c b k c' r b' k' l (conj W I)).
Qed.
(** The crate's clock with two limits. *)
Theorem C47_ts : forall WB RB BS T L1 L2 rdb wrm rio wio irq vec rti, L1 <= L2 ->
  let H := @ts_host WB RB BS T 0 rdb wrm rio wio irq vec rti in
  later (ts_is_past_limit L1) (ts_is_past_limit L2) /\
  limited (ts_is_past_limit L1) H = ts_host T L1 rdb wrm rio wio irq vec rti /\
  limited (ts_is_past_limit L2) H = ts_host T L2 rdb wrm rio wio irq vec rti.
Proof.
  intros WB RB BS T L1 L2 rdb wrm rio wio irq vec rti L. repeat split.
  intros k X. apply Z.leb_le in X. apply Z.leb_le. lia.
Qed.

(** EI, NOPs and an interrupt in mode 1, limits 4 (directly after EI), 9, 30 and 200: as with the limit 200 alone. *)
Definition sl_prog : mem := poke 0x38 [0x3C; 0x76] (poke 0x100 [0xFB; 0; 0] m0).
Definition sl_cpu : cpu qstate := set_im Mode1 (nm 0x100).
Definition sl_step (lim : Z) (x : cpu qstate * mem * Z) : option (cpu qstate * result Z Z * mem * Z * list (ev Z Z Z)) :=
  let '(c, m, k) := x in
  match runl (rig lim 0xFF) (execute_with_limit NMOS true 20 c) m k with
  | Some (Some (c, r), m, k, l) => Some (c, r, m, k, l) | _ => None end.
Example C47_ex :
  match sl_step 4 (sl_cpu, sl_prog, 0), sl_step 200 (sl_cpu, sl_prog, 0) with
  | Some (c1, None, m1, k1, l1), Some (c, r, _, k, l) =>
      last_ei c1 = true /\ k1 = 4 /\
      match sl_step 9 (c1, m1, k1) with
      | Some (c2, None, m2, k2, l2) =>
          match sl_step 200 (c2, m2, k2) with
          | Some (c3, r3, _, k3, l3) => c3 = c /\ r3 = r /\ r = Some BHalt /\ k3 = k /\
              actions l = actions l1 ++ actions l2 ++ actions l3 /\ l <> l1 ++ l2 ++ l3 /\ length (actions l) = 15%nat
          | _ => False end
      | _ => False end
  | _, _ => False end.
Proof. vm_compute. repeat split. discriminate. Qed.
(** [later] is needed: with the limits the other way round the second call does nothing. *)
Example C47_ex_order :
  match sl_step 9 (sl_cpu, sl_prog, 0) with
  | Some (c1, None, m1, k1, l1) =>
      match sl_step 4 (c1, m1, k1), sl_step 4 (sl_cpu, sl_prog, 0) with
      | Some (_, _, _, k2, _), Some (_, _, _, k, _) => k2 = 21 /\ k = 4
      | _, _ => False end
  | _ => False end.
Proof. vm_compute. repeat split. Qed.
Definition C47_all := (@C47_quiet, @C47_slices, @C47_frames, @C47_ts, C47_read_debug_refuted).
Print Assumptions C47_all.
