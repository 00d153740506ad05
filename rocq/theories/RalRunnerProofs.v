(** C53: the frame runner. *)
From Coq Require Import ZArith Bool List Lia.
From Verif Require Import Base Parse Cpu Flavours Prog Trace Internal Exec Range Clock SpecState SpecIsa SpecLog SpecEffects SpecLoop SpecPace SpecRal SpecRunner
  RalMemory RalBus RalMemProofs RalBusProofs RalRunner IsaLink SafeRun IsaRun Ewl StampRun Reach Drive Loop Pace Asks.
Import ListNotations.
Open Scope Z_scope.

(** [steady], told from the front. *)
Fixpoint still (s : Z) (l : list (ev Z unit unit)) : Prop :=
  match l with
  | [] => True
  | KTs _ :: l => still (if s =? 2 then 3 else 1) l
  | EIsIrq _ q :: l => (s = 3 -> q = true) /\ still (if q then 2 else 0) l
  | _ :: l => still 0 l
  end.
Lemma still_steady l : still 0 l -> steady l.
Proof.
  intros H l1 l2 t t' q ->. revert H. generalize 0. induction l1 as [|e l1 IH]; intros s H.
  - cbn [app still] in H. destruct H as [_ H]. cbn in H. tauto.
  - cbn [app] in H. destruct e; cbn [still] in H; try (exact (IH _ H)). exact (IH _ (proj2 H)).
Qed.

Section B.
Context {D : Type} (dv : dev D) (limit : Z) (rom : list Z) (kb : Z).
Notation H := (ral_host 255 124 dv limit).
Notation matches := (matches rom kb).
Lemma ral_metered : metered H tc_cur limit 0 (2 ^ 32).
Proof.
  constructor; try reflexivity; intros; cbn [h_add_m1 h_add_irq h_add_mreq h_add_io h_add_no_mreq h_add_wait ral_host tadd tadd' fst tc_cur];
    unfold tadd', tadd; cbn [fst tc_cur]; apply Z.mod_small;
    unfold M1_CYCLE_TS, IRQ_ACK_CYCLE_TS, MEMRW_CYCLE_TS, IO_CYCLE_TS in *; lia.
Qed.
Lemma ral_no_waits : waitless dv -> no_waits H.
Proof.
  intros (W1 & W2 & W3). constructor; intros; cbn [h_read_io h_write_io h_irq_data ral_host].
  - unfold bus_read_io. destruct (_ =? _); [now destruct b as [[]|]|]. unfold on_dev. destruct b as [[m d]|]; [|reflexivity].
    destruct (dv_read_io dv _ _ d) as [[d' [v w]]|] eqn:E; [|reflexivity]. exact (W1 _ _ _ _ _ _ E).
  - unfold bus_write_io. destruct (_ =? _); [now destruct b as [[]|]|]. unfold on_dev. destruct b as [[m d]|]; [|reflexivity].
    destruct (dv_write_io dv _ _ _ d) as [[d' [v' w]]|] eqn:E; [|reflexivity]. exact (W2 _ _ _ _ _ _ _ E).
  - unfold on_dev. destruct b as [[m d]|]; [|reflexivity].
    destruct (dv_irq_data dv _ _ d) as [[d' [v w]]|] eqn:E; [|reflexivity]. exact (W3 _ _ _ _ _ _ E).
Qed.
Ltac nxt E l' := cbv zeta in E; apply cons_log_inv in E; destruct E as (l' & E & ->).
Lemma run_hz {A} (p : prog Z unit unit A) : forall b k x b' k' l, runl H p b k = Some (x, b', k', l) -> tc_hz k' = tc_hz k.
Proof.
  induction p as [a| |f IH|a f IH|a n f IH|a f IH|a f IH|a f IH|a n f IH|f IH|a t f IH|a v t f IH|t f IH|a t f IH|a t f IH
    |a t f IH|a t f IH|a i t f IH|a v t f IH|a f IH|d f IH]; intros b k x b' k' l E; cbn [runl] in E.
  1: { now injection E as <- <- <- <-. }
  1: { discriminate E. }
  all: repeat match type of E with context [let (_, _) := ?x in _] => let F := fresh "F" in destruct x eqn:F end.
  all: nxt E l'; apply IH in E; rewrite E; try reflexivity.
  all: cbn in F; injection F as <- _; reflexivity.
Qed.
Context (ok : Z -> D -> Prop) (hz top : Z).
Hypothesis PL : polite dv ok hz top.
Definition fresh (e : option (ev Z unit unit)) (k : tclock) : Prop :=
  match e with Some (KM1 _ t) | Some (KMreq _ t) | Some (KIo _ t) | Some (KIrq _ t) | Some (KTs t) => t = tc_cur k | _ => True end.
Definition hot (s : Z) (d : D) (k : tclock) : Prop := 2 <= s -> exists d2, dv_is_irq dv (tc_cur k) d = Some (d2, true).
(** The device was last told about a time [t] in the past. *)
Definition lag (d : D) (k : tclock) : Prop := exists t, 0 <= t <= tc_cur k /\ ok t d.
Definition okb (b : bus D) (k : tclock) : Prop := exists h m d, b = Some (m, d) /\ matches h m /\ lag d k.
Definition well (b : bus D) (k : tclock) (l : list (ev Z unit unit)) (s : Z) : Prop :=
  okb b k /\ requests (buses l) = [] /\ still s l /\ ~ Exists fb_ack l.
Definition then_ (s : Z) (e : ev Z unit unit) : Z := match e with KTs _ => if s =? 2 then 3 else 1 | EIsIrq _ q => if q then 2 else 0 | _ => 0 end.
Lemma well_cons b k l s e : requests (buses [e]) = [] -> ~ fb_ack e -> (forall t q, e = EIsIrq t q -> s = 3 -> q = true) ->
  well b k l (then_ s e) -> well b k (e :: l) s.
Proof.
  intros R F S (W1 & W2 & W3 & W4). split; [exact W1|]. split; [|split].
  - change (e :: l) with ([e] ++ l). now rewrite Asks.buses_app, requests_app, R.
  - destruct e; cbn [then_] in W3; cbn [still]; auto. split; [|exact W3]. apply (S _ _ eq_refl).
  - intros X. inversion X; tauto.
Qed.
Hypothesis TOP : top <= 2 ^ 32.
Lemma tadd_cur k n : 0 <= tc_cur k -> 0 <= n -> tc_cur k + n < top -> tc_cur (tadd k n) = tc_cur k + n.
Proof. intros. unfold tadd, u32. cbn [tc_cur]. apply Z.mod_small. lia. Qed.
Lemma lag_add d k n : 0 <= tc_cur k -> 0 <= n -> tc_cur k + n < top -> lag d k -> lag d (tadd k n).
Proof. intros A1 A2 A3 (t & T1 & T2). exists t. rewrite tadd_cur by assumption. split; [lia|exact T2]. Qed.
Ltac fin HF := try apply HF; try exact I; try exact eq_refl.
Lemma run_polite {A} (p : prog Z unit unit A) : forall e s h m d k x b' k' l, matches h m -> lag d k -> hot s d k -> fresh e k ->
  runl H p (Some (m, d)) k = Some (x, b', k', l) -> stamped e l -> Forall (fun e => 0 <= spent e) l -> Forall (fun e => held e = 0) l ->
  0 <= tc_cur k -> tc_cur k + busy l < top -> well b' k' l s.
Proof.
  assert (BN : forall (e : ev Z unit unit) l t, Forall (fun e => 0 <= spent e) (e :: l) -> t + busy (e :: l) < top -> 0 <= spent e /\ t + spent e < top /\ (t + spent e) + busy l < top).
  { intros e l t F B. inversion F as [|? ? F1 F2]; subst. apply busy_nonneg in F2. rewrite busy_cons in B. lia. }
  assert (HF : forall d k, hot 0 d k) by (intros d k HH; lia).
  assert (H1 : forall d k, hot 1 d k) by (intros d k HH; lia).
  induction p as [a| |f IH|a f IH|a n f IH|a f IH|a f IH|a f IH|a n f IH|f IH|a t f IH|a v t f IH|t f IH|a t f IH|a t f IH
    |a t f IH|a t f IH|a i t f IH|a v t f IH|a f IH|dd f IH]; intros e s h m d k x b' k' l M LG HS FR E ST SP HE TC TB; cbn [runl] in E.
  1: { injection E as <- <- <- <-. split; [exists h, m, d; auto|]. split; [reflexivity|]. split; [exact I|]. intros X; inversion X. }
  1: { discriminate E. }
  - (* KPast *) nxt E l'. destruct ST as [_ ST]. destruct (BN _ _ _ SP TB) as (B1 & B2 & B3). cbn [spent] in *. rewrite Z.add_0_r in *. inversion SP; inversion HE; subst.
    apply well_cons; [reflexivity|auto|discriminate|]. eapply IH with (5:=E) (6:=ST); eauto; fin HF.
  - (* KIrq *) cbn [h_add_irq ral_host tadd'] in E. unfold tadd' in E. nxt E l'. destruct ST as [_ ST]. destruct (BN _ _ _ SP TB) as (B1 & B2 & B3). cbn [spent] in *. inversion SP; inversion HE; subst.
    apply well_cons; [reflexivity|auto|discriminate|]. pose proof (tadd_cur k 6 TC B1 B2) as K.
    eapply IH with (5:=E) (6:=ST); eauto; [apply lag_add; auto; lia|fin HF..]; try (cbn [h_add_no_mreq h_add_wait ral_host]; unfold M1_CYCLE_TS, IRQ_ACK_CYCLE_TS, MEMRW_CYCLE_TS, IO_CYCLE_TS; rewrite K; lia).
  - (* KNoMreq *) nxt E l'. destruct ST as [_ ST]. destruct (BN _ _ _ SP TB) as (B1 & B2 & B3). cbn [spent] in *. inversion SP; inversion HE; subst.
    apply well_cons; [reflexivity|auto|discriminate|]. pose proof (tadd_cur k n TC B1 B2) as K.
    eapply IH with (5:=E) (6:=ST); eauto; [apply lag_add; auto; lia|fin HF..]; try (cbn [h_add_no_mreq h_add_wait ral_host]; unfold M1_CYCLE_TS, IRQ_ACK_CYCLE_TS, MEMRW_CYCLE_TS, IO_CYCLE_TS; rewrite K; lia).
  - (* KM1 *) cbn [h_add_m1 ral_host tadd'] in E. unfold tadd' in E. nxt E l'. destruct ST as [_ ST]. destruct (BN _ _ _ SP TB) as (B1 & B2 & B3). cbn [spent] in *. inversion SP; inversion HE; subst.
    apply well_cons; [reflexivity|auto|discriminate|]. pose proof (tadd_cur k 4 TC B1 B2) as K.
    eapply IH with (5:=E) (6:=ST); eauto; [apply lag_add; auto; lia|fin HF..]; try (cbn [h_add_no_mreq h_add_wait ral_host]; unfold M1_CYCLE_TS, IRQ_ACK_CYCLE_TS, MEMRW_CYCLE_TS, IO_CYCLE_TS; rewrite K; lia).
  - (* KMreq *) cbn [h_add_mreq ral_host tadd'] in E. unfold tadd' in E. nxt E l'. destruct ST as [_ ST]. destruct (BN _ _ _ SP TB) as (B1 & B2 & B3). cbn [spent] in *. inversion SP; inversion HE; subst.
    apply well_cons; [reflexivity|auto|discriminate|]. pose proof (tadd_cur k 3 TC B1 B2) as K.
    eapply IH with (5:=E) (6:=ST); eauto; [apply lag_add; auto; lia|fin HF..]; try (cbn [h_add_no_mreq h_add_wait ral_host]; unfold M1_CYCLE_TS, IRQ_ACK_CYCLE_TS, MEMRW_CYCLE_TS, IO_CYCLE_TS; rewrite K; lia).
  - (* KIo *) cbn [h_add_io ral_host tadd'] in E. unfold tadd' in E. nxt E l'. destruct ST as [_ ST]. destruct (BN _ _ _ SP TB) as (B1 & B2 & B3). cbn [spent] in *. inversion SP; inversion HE; subst.
    apply well_cons; [reflexivity|auto|discriminate|]. pose proof (tadd_cur k 4 TC B1 B2) as K.
    eapply IH with (5:=E) (6:=ST); eauto; [apply lag_add; auto; lia|fin HF..]; try (cbn [h_add_no_mreq h_add_wait ral_host]; unfold M1_CYCLE_TS, IRQ_ACK_CYCLE_TS, MEMRW_CYCLE_TS, IO_CYCLE_TS; rewrite K; lia).
  - (* KWait *) nxt E l'. destruct ST as [_ ST]. destruct (BN _ _ _ SP TB) as (B1 & B2 & B3). cbn [spent] in *. rewrite Z.add_0_r in *. inversion SP; inversion HE; subst. cbn [held] in *. subst n.
    apply well_cons; [reflexivity|auto|discriminate|]. pose proof (tadd_cur k 0 TC B1 ltac:(lia)) as K.
    eapply IH with (5:=E) (6:=ST); eauto; [apply lag_add; auto; lia|fin HF..]; try (cbn [h_add_no_mreq h_add_wait ral_host]; unfold M1_CYCLE_TS, IRQ_ACK_CYCLE_TS, MEMRW_CYCLE_TS, IO_CYCLE_TS; rewrite K; lia).
  - (* KTs *) nxt E l'. destruct ST as [_ ST]. destruct (BN _ _ _ SP TB) as (B1 & B2 & B3). cbn [spent] in *. rewrite Z.add_0_r in *. inversion SP; inversion HE; subst.
    apply well_cons; [reflexivity|auto|discriminate|]. eapply IH with (5:=E) (6:=ST); eauto; fin HF. cbn [then_].
    destruct (s =? 2) eqn:S2; [|apply H1]. apply Z.eqb_eq in S2. subst s. intros _. apply HS. lia.
  - (* ReadIo *) destruct LG as (t0 & T0 & OK). cbn [h_read_io ral_host] in E. unfold bus_read_io in E. rewrite port_land in E. destruct (memory_port a) eqn:P.
    + nxt E l'. destruct (BN _ _ _ SP TB) as (B1 & B2 & B3). cbn [spent] in *. rewrite Z.add_0_r in *. destruct ST as [_ ST]. inversion SP; inversion HE; subst.
      apply well_cons; [reflexivity|auto|discriminate|]. eapply IH with (5:=E) (6:=ST); eauto; [exists t0; auto|fin HF..].
    + unfold on_dev in E. destruct (dv_read_io dv (u16 a) t d) as [[d' r]|] eqn:F.
      * nxt E l'. destruct (BN _ _ _ SP TB) as (B1 & B2 & B3). cbn [spent] in *. rewrite Z.add_0_r in *. destruct ST as [C ST]. cbn [covered] in C. subst e. cbn [fresh] in FR. subst t.
        destruct (pl_in _ _ _ _ PL (u16 a) _ _ _ OK T0 B2) as (d1 & v & w & F1 & OK1). rewrite F in F1. injection F1 as -> ->. inversion SP; inversion HE; subst.
        apply well_cons; [reflexivity|auto|discriminate|]. eapply IH with (5:=E) (6:=ST); eauto; [exists (tc_cur k); split; [lia|exact OK1]|fin HF..].
      * nxt E l'. destruct (BN _ _ _ SP TB) as (B1 & B2 & B3). cbn [spent] in *. rewrite Z.add_0_r in *. destruct ST as [C ST]. cbn [covered] in C. subst e. cbn [fresh] in FR. subst t.
        destruct (pl_in _ _ _ _ PL (u16 a) _ _ _ OK T0 B2) as (d1 & v & w & F1 & OK1). congruence.
  - (* WriteIo *) destruct LG as (t0 & T0 & OK). cbn [h_write_io ral_host] in E. unfold bus_write_io in E. rewrite port_land in E. destruct (memory_port a) eqn:P.
    + cbn [option_map fst snd] in E. nxt E l'. destruct (BN _ _ _ SP TB) as (B1 & B2 & B3). cbn [spent] in *. rewrite Z.add_0_r in *. destruct ST as [_ ST]. inversion SP; inversion HE; subst.
      destruct (op_ok rom kb h m (MSelect (u8 v)) M) as (m1 & E1 & M1). { cbn. unfold u8. apply Z.mod_pos_bound. reflexivity. }
      cbn [mem_op] in E1. injection E1 as <-.
      apply well_cons; [reflexivity|auto|discriminate|]. eapply IH with (5:=E) (6:=ST); eauto; [exists t0; auto|fin HF..].
    + unfold on_dev in E. destruct (dv_write_io dv (u16 a) (u8 v) t d) as [[d' r]|] eqn:F.
      * nxt E l'. destruct (BN _ _ _ SP TB) as (B1 & B2 & B3). cbn [spent] in *. rewrite Z.add_0_r in *. destruct ST as [C ST]. cbn [covered] in C. subst e. cbn [fresh] in FR. subst t.
        destruct (pl_out _ _ _ _ PL (u16 a) (u8 v) _ _ _ OK T0 B2) as (d1 & w & F1 & OK1). rewrite F in F1. injection F1 as -> ->. inversion SP; inversion HE; subst.
        apply well_cons; [reflexivity|auto|discriminate|]. eapply IH with (5:=E) (6:=ST); eauto; [exists (tc_cur k); split; [lia|exact OK1]|fin HF..].
      * nxt E l'. destruct (BN _ _ _ SP TB) as (B1 & B2 & B3). cbn [spent] in *. rewrite Z.add_0_r in *. destruct ST as [C ST]. cbn [covered] in C. subst e. cbn [fresh] in FR. subst t.
        destruct (pl_out _ _ _ _ PL (u16 a) (u8 v) _ _ _ OK T0 B2) as (d1 & w & F1 & OK1). congruence.
  - (* IsIrq *) destruct LG as (t0 & T0 & OK). cbn [h_is_irq ral_host] in E. unfold on_dev in E. destruct (dv_is_irq dv t d) as [[d' r]|] eqn:F.
    + nxt E l'. destruct (BN _ _ _ SP TB) as (B1 & B2 & B3). cbn [spent] in *. rewrite Z.add_0_r in *. destruct ST as [C ST]. cbn [covered] in C. subst e. cbn [fresh] in FR. subst t.
      destruct (pl_irq _ _ _ _ PL _ _ _ OK T0 B2) as (d1 & q & F1 & OK1 & NX). rewrite F in F1. injection F1 as -> ->. inversion SP; inversion HE; subst.
      apply well_cons; [reflexivity|auto| |].
      * intros t q' [= <- <-] S3. destruct HS as [d2 HS]; [lia|]. rewrite F in HS. now injection HS.
      * eapply IH with (5:=E) (6:=ST); eauto; [exists (tc_cur k); split; [lia|exact OK1]|fin HF..]. cbn [then_]. destruct q; [|apply HF]. intros _. exact (NX eq_refl).
    + nxt E l'. destruct (BN _ _ _ SP TB) as (B1 & B2 & B3). cbn [spent] in *. rewrite Z.add_0_r in *. destruct ST as [C ST]. cbn [covered] in C. subst e. cbn [fresh] in FR. subst t.
      destruct (pl_irq _ _ _ _ PL _ _ _ OK T0 B2) as (d1 & q & F1 & OK1 & NX). congruence.
  - (* IrqData *) destruct LG as (t0 & T0 & OK). cbn [h_irq_data ral_host] in E. unfold on_dev in E. destruct (dv_irq_data dv (u16 a) t d) as [[d' r]|] eqn:F.
    + nxt E l'. destruct (BN _ _ _ SP TB) as (B1 & B2 & B3). cbn [spent] in *. rewrite Z.add_0_r in *. destruct ST as [C ST]. cbn [covered] in C. subst e. cbn [fresh] in FR. subst t.
      destruct (pl_ack _ _ _ _ PL (u16 a) _ _ _ OK T0 B2) as (d1 & v & w & F1 & OK1 & NX). rewrite F in F1. injection F1 as -> ->. inversion SP; inversion HE; subst.
      apply well_cons; [reflexivity|exact NX|discriminate|]. eapply IH with (5:=E) (6:=ST); eauto; [exists (tc_cur k); split; [lia|exact OK1]|fin HF..].
    + nxt E l'. destruct (BN _ _ _ SP TB) as (B1 & B2 & B3). cbn [spent] in *. rewrite Z.add_0_r in *. destruct ST as [C ST]. cbn [covered] in C. subst e. cbn [fresh] in FR. subst t.
      destruct (pl_ack _ _ _ _ PL (u16 a) _ _ _ OK T0 B2) as (d1 & v & w & F1 & OK1 & NX). congruence.
  - (* Reti *) destruct LG as (t0 & T0 & OK). cbn [h_reti ral_host] in E. unfold on_dev in E. destruct (dv_reti dv (u16 a) t d) as [[d' r]|] eqn:F.
    + nxt E l'. destruct (BN _ _ _ SP TB) as (B1 & B2 & B3). cbn [spent] in *. rewrite Z.add_0_r in *. destruct ST as [C ST]. cbn [covered] in C. subst e. cbn [fresh] in FR. subst t.
      destruct (pl_reti _ _ _ _ PL (u16 a) _ _ _ OK T0 B2) as (d1 & F1 & OK1). rewrite F in F1. injection F1 as -> ->. inversion SP; inversion HE; subst.
      apply well_cons; [reflexivity|auto|discriminate|]. eapply IH with (5:=E) (6:=ST); eauto; [exists (tc_cur k); split; [lia|exact OK1]|fin HF..].
    + nxt E l'. destruct (BN _ _ _ SP TB) as (B1 & B2 & B3). cbn [spent] in *. rewrite Z.add_0_r in *. destruct ST as [C ST]. cbn [covered] in C. subst e. cbn [fresh] in FR. subst t.
      destruct (pl_reti _ _ _ _ PL (u16 a) _ _ _ OK T0 B2) as (d1 & F1 & OK1). congruence.
  - (* ReadMem *) cbn [h_read_mem ral_host on_mem] in E. unfold m_read_mem in E. rewrite (read_debug_ok _ _ h m _ M (u16_range a)) in E. cbn [option_map] in E.
    nxt E l'. destruct (BN _ _ _ SP TB) as (B1 & B2 & B3). cbn [spent] in *. rewrite Z.add_0_r in *. destruct ST as [_ ST]. inversion SP; inversion HE; subst.
    apply well_cons; [reflexivity|auto|discriminate|]. eapply IH with (5:=E) (6:=ST); eauto; fin HF.
  - (* ReadMem16 *) cbn [h_read_mem16 ral_host on_mem] in E. rewrite (read_mem16_ok _ _ h m _ M (u16_range a)) in E. cbn [option_map] in E.
    nxt E l'. destruct (BN _ _ _ SP TB) as (B1 & B2 & B3). cbn [spent] in *. rewrite Z.add_0_r in *. destruct ST as [_ ST]. inversion SP; inversion HE; subst.
    apply well_cons; [reflexivity|auto|discriminate|]. eapply IH with (5:=E) (6:=ST); eauto; fin HF.
  - (* ReadOpcode *) destruct LG as (t0 & T0 & OK). cbn [h_read_opcode ral_host] in E. unfold bus_read_opcode, on_dev' in E.
    destruct (op_ok rom kb h m (MFetch (u16 a)) M (u16_range a)) as (m1 & E1 & M1). cbn [mem_op] in E1.
    destruct (dv_m1 dv t d) as [d1|] eqn:F; cbn [on_mem] in E.
    + rewrite E1 in E. nxt E l'. destruct (BN _ _ _ SP TB) as (B1 & B2 & B3). cbn [spent] in *. rewrite Z.add_0_r in *. destruct ST as [C ST]. cbn [covered] in C. subst e. cbn [fresh] in FR. subst t.
      destruct (pl_m1 _ _ _ _ PL _ _ _ OK T0 B2) as (d2 & F1 & OK1). rewrite F in F1. injection F1 as ->. inversion SP; inversion HE; subst.
      apply well_cons; [reflexivity|auto|discriminate|]. eapply IH with (5:=E) (6:=ST); eauto; [exists (tc_cur k); split; [lia|exact OK1]|fin HF..].
    + nxt E l'. destruct (BN _ _ _ SP TB) as (B1 & B2 & B3). cbn [spent] in *. rewrite Z.add_0_r in *. destruct ST as [C ST]. cbn [covered] in C. subst e. cbn [fresh] in FR. subst t.
      destruct (pl_m1 _ _ _ _ PL _ _ _ OK T0 B2) as (d2 & F1 & OK1). congruence.
  - (* WriteMem *) destruct (op_ok rom kb h m (MWrite (u16 a) (u8 v)) M (u16_range a)) as (m1 & E1 & M1).
    cbn [mem_op] in E1. injection E1 as <-. cbn [h_write_mem ral_host option_map fst snd] in E.
    nxt E l'. destruct (BN _ _ _ SP TB) as (B1 & B2 & B3). cbn [spent] in *. rewrite Z.add_0_r in *. destruct ST as [_ ST]. inversion SP; inversion HE; subst.
    apply well_cons; [reflexivity|auto|discriminate|]. eapply IH with (5:=E) (6:=ST); eauto; fin HF.
  - (* ReadDebug *) cbn [h_read_debug ral_host on_mem] in E. rewrite (read_debug_ok _ _ h m _ M (u16_range a)) in E. cbn [option_map] in E.
    nxt E l'. destruct (BN _ _ _ SP TB) as (B1 & B2 & B3). cbn [spent] in *. rewrite Z.add_0_r in *. destruct ST as [_ ST]. inversion SP; inversion HE; subst.
    apply well_cons; [reflexivity|auto|discriminate|]. eapply IH with (5:=E) (6:=ST); eauto; fin HF.
  - nxt E l'. destruct (BN _ _ _ SP TB) as (B1 & B2 & B3). cbn [spent] in *. rewrite Z.add_0_r in *. destruct ST as [_ ST]. inversion SP; inversion HE; subst.
    apply well_cons; [reflexivity|auto|discriminate|]. eapply IH with (5:=E) (6:=ST); eauto; fin HF.
Qed.
End B.

Section R.
Context {Q T D : Type} (FL : Flavour Q) (ch : chip T) (absq : Q -> T).
Hypothesis OK : chip_ok FL ch absq.
Variables (da : bool) (dv : dev D).
Hypothesis WL : waitless dv.
Notation H lim := (ral_host 255 124 dv lim).

(** Lengths, of steps that happen. *)
Lemma leg_rate lim n c b k c' r b' k' g : wf c -> 0 <= tc_cur k < 2 ^ 32 -> lim + 22 < 2 ^ 32 ->
  run (H lim) (execute_with_limit FL da n c) b k = Some (Some (c', r), b', k', g) ->
  wf c' /\ tc_hz k' = tc_hz k /\ tc_cur k <= tc_cur k' <= Z.max (tc_cur k) (lim + 22) /\ (r = None -> lim <= tc_cur k').
Proof.
  intros Wc HK HL E. rewrite run_runl in E. destruct (runl _ _ b k) as [[[[y b1] k1] l]|] eqn:E1; [|discriminate E]. injection E as -> -> -> _.
  assert (DA : da = true -> halt c = true -> is_int_allowed (prefix c) (last_ei c) = true).
  { intros -> Hh. unfold execute_with_limit in E1. rewrite Hh in E1. destruct (is_int_allowed _ _); [reflexivity|discriminate E1]. }
  destruct (wpl_at _ _ _ _ _ _ _ _ _ _ _ (execute_with_limit_stm FL da n c Wc DA) E1) as [ST W].
  destruct (held_zero _ (run_held (H lim) (ral_no_waits dv lim WL) _ None _ _ _ _ _ _ E1 (ST None) I)) as [HZ HP].
  destruct (overshoot FL ch absq OK (H lim) tc_cur lim 0 (2 ^ 32) (ral_metered dv lim) da n c b k c' r b' k' l Wc E1 HP) as (O1 & O2 & O3); [lia..|].
  split; [exact W|]. split; [exact (run_hz dv lim _ _ _ _ _ _ _ E1)|]. split; [lia|exact O3].
Qed.
Lemma frame_rate lim fuel n : forall c b k c' b' k', wf c -> 0 <= tc_cur k < 2 ^ 32 -> lim + 22 < 2 ^ 32 ->
  frame_loop FL da 255 124 dv n fuel lim c b k = Done (c', b', k') ->
  wf c' /\ tc_hz k' = tc_hz k /\ tc_cur k <= tc_cur k' <= Z.max (tc_cur k) (lim + 22) /\ lim <= tc_cur k'.
Proof.
  induction n as [|n IH]; intros c b k c' b' k' Wc HK HL E; [discriminate E|]. cbn [frame_loop] in E.
  destruct (run _ _ b k) as [[[[[[c1 r]|] b1] k1] g]|] eqn:E1; try discriminate E.
  destruct (leg_rate _ _ _ _ _ _ _ _ _ _ Wc HK HL E1) as (W1 & Z1 & T1 & L1).
  destruct b1 as [x|]; [|discriminate E]. cbn [with_bus] in E. destruct r as [[| |]|]; try discriminate E.
  - assert (KK : 0 <= tc_cur k1 < 2 ^ 32) by lia. destruct (IH _ _ _ _ _ _ W1 KK HL E) as (W2 & Z2 & T2 & L2). split; [exact W2|]. split; [congruence|]. split; [lia|exact L2].
  - injection E as <- <- <-. split; [exact W1|]. split; [exact Z1|]. split; [lia|now apply L1].
Qed.
(** The clock of the runner between frames: [hz] with [frame] T-states each. *)
Record geared (hz frame : Z) (r : runner) : Prop := mkGeared {
  ge_hz : tc_hz (rn_clock r) = hz; ge_frame : rn_frame r = frame;
  ge_lim : rn_limit r <= tc_cur (rn_clock r) <= rn_limit r + 22;
  ge_low : hz <= tc_cur (rn_clock r); ge_high : rn_limit r <= 2 * hz + frame }.
Lemma step_rate hz frame fuel w w' t : 22 <= hz -> 0 <= frame <= hz -> 2 * hz + frame + 22 < 2 ^ 32 -> wf (w_cpu w) -> geared hz frame (w_run w) ->
  runner_step FL da 255 124 dv fuel w = Done (w', t) ->
  wf (w_cpu w') /\ geared hz frame (w_run w') /\
  exists x : bool, let z := if x then hz else 0 in
    tc_cur (rn_clock (w_run w')) + z = tc_cur (rn_clock (w_run w)) + t /\ rn_limit (w_run w') + z = rn_limit (w_run w) + frame.
Proof.
  intros HZ HF HT Wc [G1 G2 G3 G4 G5] E. unfold runner_step in E. destruct w as [[k lim fr] c b]. cbn [w_run w_cpu w_bus rn_clock rn_limit rn_frame] in *. subst fr.
  unfold check_wrap_second in E. rewrite G1 in E. unfold mul32 in E. rewrite (proj2 (Z.ltb_lt _ _)) in E by lia.
  assert (E' : exists (x : bool) kk b0, let z := if x then hz else 0 in tc_hz kk = hz /\ tc_cur kk = tc_cur k - z /\
    hz <= tc_cur kk <= 2 * hz + 22 /\ 0 <= lim - z <= 2 * hz /\
    match frame_loop FL da 255 124 dv fuel fuel (lim - z + frame) c b0 kk with
    | Panicked => Panicked
    | More => More
    | Done (c, b, k) =>
      with_bus (bus_frame_end dv (tc_cur k) b) (fun b =>
        Done (mkWorld (mkRunner k (lim - z + frame) frame) c b, u32 (tc_cur k - tc_cur kk)))
    end = Done (w', t)).
  { destruct (2 * hz <? tc_cur k) eqn:EW; cbn [checked tc_hz] in E.
    - apply Z.ltb_lt in EW. exists true. unfold sub32 in E. rewrite (proj2 (Z.leb_le _ _)) in E by lia. cbn [checked] in E.
      destruct (bus_next_second dv hz b) as [x|] eqn:EB; [|discriminate E]. cbn [with_bus] in E.
      unfold add32 in E. rewrite (proj2 (Z.ltb_lt _ _)) in E by lia. cbn [checked tc_cur] in E.
      assert (U : u32 (tc_cur k - hz) = tc_cur k - hz) by (unfold u32; apply Z.mod_small; lia). rewrite U in E.
      eexists (mkTClock (tc_cur k - hz) hz), _. cbn [tc_hz tc_cur]. repeat (split; [lia|]). exact E.
    - apply Z.ltb_ge in EW. exists false. cbn [checked] in E. destruct b as [x|]; [|discriminate E]. cbn [with_bus] in E.
      unfold add32 in E. rewrite (proj2 (Z.ltb_lt _ _)) in E by lia. cbn [checked tc_cur] in E.
      exists k. eexists _. cbn zeta. repeat (split; [lia|]). rewrite Z.sub_0_r. exact E. }
  clear E. destruct E' as (x & kk & b0 & K1 & K2 & K3 & K4 & E). set (z := if x then hz else 0) in *.
  destruct (frame_loop _ _ _ _ _ _ _ _ c b0 kk) as [| |[[c1 b1] k1]] eqn:EL; try discriminate E.
  assert (KK : 0 <= tc_cur kk < 2 ^ 32) by lia. assert (LL : lim - z + frame + 22 < 2 ^ 32) by lia. destruct (frame_rate _ _ _ _ _ _ _ _ _ Wc KK LL EL) as (W1 & Z1 & T1 & L1).
  destruct (bus_frame_end _ _ _) as [y|]; [|discriminate E]. cbn [with_bus] in E. injection E as <- <-.
  cbn [w_run w_cpu rn_clock rn_limit rn_frame]. split; [exact W1|].
  split; [constructor; cbn [rn_clock rn_limit rn_frame]; try lia|]. exists x. fold z. cbn zeta.
  unfold u32. rewrite Z.mod_small by lia. lia.
Qed.
Lemma steps_rate hz frame fuel n : forall w w' l, 22 <= hz -> 0 <= frame <= hz -> 2 * hz + frame + 22 < 2 ^ 32 -> wf (w_cpu w) -> geared hz frame (w_run w) ->
  runner_steps FL da 255 124 dv n fuel w = Done (w', l) ->
  wf (w_cpu w') /\ geared hz frame (w_run w') /\ length l = n /\
  exists x, 0 <= x /\ tc_cur (rn_clock (w_run w')) + x * hz = tc_cur (rn_clock (w_run w)) + sum l /\
    rn_limit (w_run w') + x * hz = rn_limit (w_run w) + Z.of_nat n * frame.
Proof.
  induction n as [|n IH]; intros w w' l HZ HF HT Wc G E; cbn [runner_steps] in E.
  - injection E as <- <-. split; [exact Wc|]. split; [exact G|]. split; [reflexivity|]. exists 0. cbn. lia.
  - destruct (runner_steps _ _ _ _ _ n fuel w) as [| |[w1 l1]] eqn:E1; try discriminate E.
    destruct (runner_step _ _ _ _ _ fuel w1) as [| |[w2 t]] eqn:E2; try discriminate E. injection E as <- <-.
    destruct (IH _ _ _ HZ HF HT Wc G E1) as (W1 & G1 & N1 & x & X0 & X1 & X2).
    destruct (step_rate _ _ _ _ _ _ HZ HF HT W1 G1 E2) as (W2 & G2 & z & Y1 & Y2).
    split; [exact W2|]. split; [exact G2|]. split; [rewrite app_length, N1; cbn; lia|].
    assert (S : sum (l1 ++ [t]) = sum l1 + t). { unfold sum. clear. induction l1 as [|a l1 IH]; cbn [app fold_right]; lia. }
    rewrite S, Nat2Z.inj_succ. exists (x + if z then 1 else 0). cbn zeta in *. destruct z; lia.
Qed.

(** Nothing stops the machine. *)
Variables (rom : list Z) (kb : Z) (ok : Z -> D -> Prop) (hz top : Z).
Hypotheses (PL : polite dv ok hz top) (TOP : top <= 2 ^ 32).
Notation okb := (okb rom kb ok).
Lemma leg_runs lim n c b k : inv39 c -> okb b k -> 0 <= tc_cur k < top -> lim + 22 < top -> lim - tc_cur k <= 4 * (Z.of_nat n - 1) -> (0 < n)%nat ->
  exists c' r b' k' g, run (H lim) (execute_with_limit FL da n c) b k = Some (Some (c', r), b', k', g) /\ inv39 c' /\ okb b' k' /\
    tc_hz k' = tc_hz k /\ tc_cur k <= tc_cur k' <= Z.max (tc_cur k) (lim + 22) /\ (r = None -> lim <= tc_cur k') /\
    (r = None \/ r = Some BHalt /\ tc_cur k + 4 <= tc_cur k').
Proof.
  intros IV OB HK HL HN N0. pose proof IV as [Wc IH].
  destruct (returns FL ch absq OK (H lim) tc_cur lim 0 (2 ^ 32) (ral_metered dv lim) (ral_no_waits dv lim WL) da n c b k Wc (fun _ => IH)) as (c' & r & b' & k' & l & E & R1 & R2 & R3 & R4 & R5); [lia..|].
  exists c', r, b', k', (debugs l). rewrite run_runl, E. split; [reflexivity|].
  assert (DA : da = true -> halt c = true -> is_int_allowed (prefix c) (last_ei c) = true).
  { intros _ Hh. destruct (IH Hh) as [-> ->]. reflexivity. }
  destruct (wpl_at _ _ _ _ _ _ _ _ _ _ _ (execute_with_limit_stm FL da n c Wc DA) E) as [ST _].
  pose proof (run_held (H lim) (ral_no_waits dv lim WL) _ None _ _ _ _ _ _ E (ST None) I) as HE.
  pose proof (spent_nonneg _ None (ST None)) as SN.
  destruct OB as (h & m & d & -> & M & LG).
  assert (W : well rom kb ok b' k' l 0).
  { eapply run_polite with (7 := E) (8 := ST None); eauto; try exact I; try lia; intros X; lia. }
  destruct W as (W1 & W2 & W3 & W4).
  assert (E2 : runl (H lim) (execute_with_limit FL false n c) (Some (m, d)) k = Some (Some (c', r), b', k', l)).
  { rewrite <- E. destruct da; [|reflexivity]. unfold execute_with_limit. destruct (halt c) eqn:Hh; [|reflexivity]. destruct (IH eq_refl) as [-> ->]. reflexivity. }
  split; [exact (limit_inv39 FL ch absq OK (H lim) n c _ _ _ _ _ _ _ (still_steady _ W3) W4 IV E2)|].
  split; [exact W1|]. split; [exact (run_hz dv lim _ _ _ _ _ _ _ E)|]. split; [exact R3|]. split; [exact R4|].
  pose proof (ewl_asks FL ch absq OK (H lim) da n c _ _ _ _ _ _ Wc E) as A. rewrite W2 in A.
  destruct r as [[| |]|]; try discriminate A; [right; split; [reflexivity|now apply (R5 BHalt)]|now left].
Qed.
Lemma frame_runs lim fuel : (0 < fuel)%nat -> forall n c b k, inv39 c -> okb b k -> 0 <= tc_cur k < top -> lim + 22 < top ->
  lim - tc_cur k <= 4 * (Z.of_nat fuel - 1) -> lim + 22 - tc_cur k <= 4 * (Z.of_nat n - 1) -> (0 < n)%nat ->
  exists c' b' k', frame_loop FL da 255 124 dv n fuel lim c b k = Done (c', b', k') /\ inv39 c' /\ okb b' k' /\ 
    tc_hz k' = tc_hz k /\ tc_cur k <= tc_cur k' <= Z.max (tc_cur k) (lim + 22) /\ lim <= tc_cur k'.
Proof.
  intros F0. induction n as [|n IH]; intros c b k IV OB HK HL HF HN N0; [lia|]. cbn [frame_loop].
  destruct (leg_runs lim fuel c b k IV OB HK HL HF F0) as (c1 & r & b1 & k1 & g & E & I1 & O1 & Z1 & T1 & L1 & R). rewrite E.
  pose proof O1 as (h & m & d & -> & _). cbn [with_bus]. destruct R as [->|[-> T4]].
  - exists c1, (Some (m, d)), k1. split; [reflexivity|]. auto 10.
  - destruct (IH c1 (Some (m, d)) k1 I1 O1) as (c2 & b2 & k2 & E2 & I2 & O2 & Z2 & T2 & L2); [lia..|].
    exists c2, b2, k2. split; [exact E2|]. split; [exact I2|]. split; [exact O2|]. split; [congruence|]. split; [lia|exact L2].
Qed.
Definition sound (frame : Z) (w : world Q D) : Prop :=
  inv39 (w_cpu w) /\ geared hz frame (w_run w) /\ exists h m d, w_bus w = Some (m, d) /\ matches rom kb h m /\ ok (tc_cur (rn_clock (w_run w))) d.
Lemma step_runs frame fuel w : 22 <= hz -> 0 <= frame <= hz -> 2 * hz + frame + 22 < top -> frame + 22 <= 4 * (Z.of_nat fuel - 1) -> sound frame w ->
  exists w' t, runner_step FL da 255 124 dv fuel w = Done (w', t) /\ sound frame w'.
Proof.
  intros HZ HF HT FU (IV & G & h & m & d & EB & M & OKD). pose proof G as [G1 G2 G3 G4 G5].
  destruct w as [[k lim fr] c b]. cbn [w_run w_cpu w_bus rn_clock rn_limit rn_frame] in *. subst fr b.
  assert (X : exists (x : bool) kk d', let z := if x then hz else 0 in tc_hz kk = hz /\ tc_cur kk = tc_cur k - z /\ ok (tc_cur kk) d' /\
    hz <= tc_cur kk <= 2 * hz + 22 /\ 0 <= lim - z <= 2 * hz /\
    runner_step FL da 255 124 dv fuel (mkWorld (mkRunner k lim frame) c (Some (m, d))) =
    match frame_loop FL da 255 124 dv fuel fuel (lim - z + frame) c (Some (m, d')) kk with
    | Panicked => Panicked
    | More => More
    | Done (c, b, k) =>
      with_bus (bus_frame_end dv (tc_cur k) b) (fun b =>
        Done (mkWorld (mkRunner k (lim - z + frame) frame) c b, u32 (tc_cur k - tc_cur kk)))
    end).
  { unfold runner_step. cbn [w_run w_cpu w_bus rn_clock rn_limit rn_frame].
    unfold check_wrap_second. rewrite G1. unfold mul32. rewrite (proj2 (Z.ltb_lt (2 * hz) _)) by lia.
    destruct (2 * hz <? tc_cur k) eqn:EW; cbn [checked tc_hz].
    - apply Z.ltb_lt in EW. exists true. unfold sub32. rewrite (proj2 (Z.leb_le hz lim)) by lia. cbn [checked].
      destruct (pl_second _ _ _ _ PL _ _ OKD EW ltac:(lia)) as (d' & E' & OK'). unfold bus_next_second, on_dev'. rewrite E'. cbn [with_bus].
      unfold add32. rewrite (proj2 (Z.ltb_lt (lim - hz + frame) _)) by lia. cbn [checked tc_cur].
      assert (U : u32 (tc_cur k - hz) = tc_cur k - hz) by (unfold u32; apply Z.mod_small; lia). rewrite U.
      exists (mkTClock (tc_cur k - hz) hz), d'. cbn [tc_hz tc_cur]. split; [reflexivity|]. split; [reflexivity|]. split; [exact OK'|]. split; [lia|]. split; [lia|reflexivity].
    - apply Z.ltb_ge in EW. exists false. cbn [checked with_bus].
      unfold add32. rewrite (proj2 (Z.ltb_lt (lim + frame) _)) by lia. cbn [checked tc_cur].
      exists k, d. cbn zeta. rewrite !Z.sub_0_r. split; [exact G1|]. split; [reflexivity|]. split; [exact OKD|]. split; [lia|]. split; [lia|reflexivity]. }
  destruct X as (x & kk & d' & K1 & K2 & OK' & K3 & K4 & E). set (z := if x then hz else 0) in *. rewrite E.
  destruct (frame_runs (lim - z + frame) fuel ltac:(lia) fuel c (Some (m, d')) kk IV) as (c1 & b1 & k1 & EL & I1 & (h1 & m1 & d1 & -> & M1 & t1 & T1 & OK1) & Z1 & T2 & L1); [|lia..|].
  { exists h, m, d'. split; [reflexivity|]. split; [exact M|]. exists (tc_cur kk). split; [lia|exact OK']. }
  rewrite EL. destruct (pl_frame_end _ _ _ _ PL _ _ _ OK1 T1 ltac:(lia)) as (d2 & E2 & OK2). unfold bus_frame_end, on_dev'. rewrite E2. cbn [with_bus].
  eexists _, _. split; [reflexivity|]. split; [exact I1|]. cbn [w_run w_cpu w_bus rn_clock rn_limit rn_frame].
  split; [constructor; cbn [rn_clock rn_limit rn_frame]; lia|]. exists h1, m1, d2. auto.
Qed.
Lemma steps_runs frame fuel n w : 22 <= hz -> 0 <= frame <= hz -> 2 * hz + frame + 22 < top -> frame + 22 <= 4 * (Z.of_nat fuel - 1) -> sound frame w ->
  exists w' l, runner_steps FL da 255 124 dv n fuel w = Done (w', l) /\ sound frame w'.
Proof.
  intros HZ HF HT FU S. induction n as [|n (w1 & l1 & E1 & S1)]; [exists w, []; auto|]. cbn [runner_steps]. rewrite E1.
  destruct (step_runs frame fuel w1 HZ HF HT FU S1) as (w2 & t & E2 & S2). rewrite E2. eauto.
Qed.
(** The NMI button. *)
Lemma nmi_busy c : wpl (nmi FL c) (fun x (l : list (ev Z unit unit)) => snd x = is_int_allowed (prefix c) (last_ei c) /\ busy l = if snd x then 11 else 0).
Proof.
  unfold nmi. destruct (is_int_allowed _ _) eqn:EA; [|cbn; auto]. unfold nmi_no_check. cbv zeta.
  destruct (halt _); unfold on_cpu, push16, push2; cbn; auto.
Qed.
Lemma nmi_runs frame w : 22 <= hz -> 0 <= frame <= hz -> 2 * hz + frame + 33 < top -> sound frame w ->
  let r := w_run w in let c := w_cpu w in let q := is_int_allowed (prefix c) (last_ei c) in
  exists w', runner_nmi FL 255 124 dv w = Done (w', if q then Some 11 else None) /\
    w_run w' = mkRunner (mkTClock (tc_cur (rn_clock r) + (if q then 11 else 0)) hz) (rn_limit r) frame /\
    (q = false -> w_cpu w' = c) /\ (q = true -> pc (w_cpu w') = 0x66).
Proof.
  intros HZ HF HT (IV & G & h & m & d & EB & M & OKD) r c q. destruct G as [G1 G2 G3 G4 G5]. fold r in G1, G2, G3, G4, G5, OKD. fold c in IV.
  pose proof (proj1 IV) as Wc.
  pose proof (wpl_run (H 0) _ _ (w_bus w) (rn_clock r) (nmi_stm FL c Wc)) as (x & b' & k' & l & E & ST & _).
  destruct (wpl_at _ _ _ _ _ _ _ _ _ _ _ (nmi_busy c) E) as [X B]. destruct x as [c' q']. cbn [fst snd] in *. fold q in X. subst q'.
  pose proof (run_held (H 0) (ral_no_waits dv 0 WL) _ None _ _ _ _ _ _ E (ST None) I) as HE.
  pose proof (spent_nonneg _ None (ST None)) as SN. destruct (held_zero _ HE) as [HZ' HP].
  assert (B' : 0 <= busy l <= 11) by (destruct q; lia).
  destruct (track (H 0) tc_cur 0 0 (2 ^ 32) (ral_metered dv 0) _ _ _ _ _ _ _ (tc_cur (rn_clock r)) E SN HP ltac:(lia) ltac:(auto)) as [_ TK].
  specialize (TK ltac:(lia)).
  assert (W : well rom kb ok b' k' l 0).
  { rewrite EB in E. eapply run_polite with (7 := E) (8 := ST None); eauto; try exact I; try lia; [exists (tc_cur (rn_clock r)); split; [lia|exact OKD]|intros ?; lia]. }
  destruct W as [(h1 & m1 & d1 & -> & _) _].
  unfold runner_nmi. fold r c. rewrite run_runl, E. cbn [with_bus]. eexists. split.
  - f_equal. f_equal. destruct q; [|reflexivity]. rewrite TK. unfold u32. rewrite Z.mod_small by lia. f_equal. lia.
  - cbn [w_run w_cpu]. split; [|split].
    + rewrite G2. f_equal. pose proof (run_hz dv 0 _ _ _ _ _ _ _ E) as RH. destruct k' as [a z]. cbn [tc_cur tc_hz] in *. f_equal; [|congruence]. destruct q; lia.
    + intros Q0. unfold nmi in E. unfold q in Q0. rewrite Q0 in E. cbn in E. now injection E as <- _.
    + intros Q1. unfold nmi in E. unfold q in Q1. rewrite Q1 in E.
      assert (PC : wpl (pbind (nmi_no_check FL c) (fun c' => Ret (c', true))) (fun x (l : list (ev Z unit unit)) => pc (fst x) = 0x66)).
      { unfold nmi_no_check. cbv zeta. destruct (halt _); unfold on_cpu, push16, push2; cbn; auto. }
      exact (wpl_at _ _ _ _ _ _ _ _ _ _ _ PC E).
Qed.
End R.

Lemma start_sound {Q D} (FL : Flavour Q) (dv : dev D) rom kb ok hz top ext fhz r c h m d : polite dv ok hz top -> hz < top ->
  0 <= fhz -> 0 <= hz -> runner_new ext fhz hz = Some r -> matches rom kb h m -> ok 0 d ->
  exists w, runner_start FL dv (mkWorld r c (Some (m, d))) = Done w /\ sound rom kb ok hz (hz / fhz) w.
Proof.
  intros PL HT F0 H0 N M OKD. unfold runner_new in N. destruct (clock_is_valid ext hz) as [[|]|]; try discriminate N.
  destruct (fhz =? 0) eqn:EF; [discriminate N|]. apply Z.eqb_neq in EF. injection N as <-.
  unfold runner_start. cbn [w_run w_bus rn_clock rn_frame w_cpu tclock_reset tclock_new tc_cur tc_hz].
  destruct (pl_reset _ _ _ _ PL 0 hz d OKD ltac:(lia) HT) as (d' & E & OK'). unfold bus_reset, on_dev'. rewrite E. cbn [with_bus].
  eexists. split; [reflexivity|]. split; [|split].
  - split; [apply wf_reset|]. intros X. discriminate X.
  - constructor; cbn [w_run rn_clock rn_limit rn_frame tc_cur tc_hz]; try reflexivity; [cbn; lia|assert (0 <= hz / fhz) by (apply Z.div_pos; lia); lia].
  - exists h, m, d'. auto.
Qed.
Lemma start_geared {Q D} (FL : Flavour Q) (dv : dev D) ext fhz hz r c b w :
  0 <= fhz -> 0 <= hz -> runner_new ext fhz hz = Some r -> runner_start FL dv (mkWorld r c b) = Done w ->
  wf (w_cpu w) /\ geared hz (hz / fhz) (w_run w) /\ tc_cur (rn_clock (w_run w)) = hz /\ rn_limit (w_run w) = hz /\ 0 <= hz / fhz <= hz.
Proof.
  intros F0 H0 N. unfold runner_new in N. destruct (clock_is_valid ext hz) as [[|]|]; try discriminate N.
  destruct (fhz =? 0) eqn:EF; [discriminate N|]. apply Z.eqb_neq in EF. injection N as <-.
  unfold runner_start. cbn [w_run w_bus rn_clock rn_frame w_cpu tclock_reset tclock_new tc_cur tc_hz].
  destruct (bus_reset _ _ _) as [x|]; [|discriminate]. cbn [with_bus]. intros [= <-].
  assert (0 <= hz / fhz <= hz). { split; [apply Z.div_pos; lia|]. apply Z.div_le_upper_bound; nia. }
  split; [apply wf_reset|]. split; [|auto]. constructor; cbn [w_run rn_clock rn_limit rn_frame tc_cur tc_hz]; try reflexivity; [cbn; lia|lia].
Qed.
(** ** Together *)
Section Z.
Context {Q T D : Type} (FL : Flavour Q) (ch : chip T) (absq : Q -> T).
Hypothesis OK : chip_ok FL ch absq.
Variables (dv : dev D) (ext fhz hz : Z) (r : runner).
Hypotheses (WL : waitless dv) (F0 : 0 <= fhz) (N : runner_new ext fhz hz = Some r) (HZ : 22 <= hz).
Lemma rate da fuel n c b w w' l : 2 * hz + hz / fhz + 22 < 2 ^ 32 ->
  runner_start FL dv (mkWorld r c b) = Done w -> runner_steps FL da 255 124 dv n fuel w = Done (w', l) ->
  let t := tc_cur (rn_clock (w_run w')) in
  length l = n /\ Z.of_nat n * (hz / fhz) <= sum l <= Z.of_nat n * (hz / fhz) + 22 /\
  hz <= t <= 2 * hz + hz / fhz + 22 /\ exists seconds, 0 <= seconds /\ t + seconds * hz = hz + sum l.
Proof.
  intros HT ES EN t. destruct (start_geared FL dv ext fhz hz r c b w F0 ltac:(lia) N ES) as (W & G & C0 & L0 & FR).
  destruct (steps_rate FL ch absq OK da dv WL hz (hz / fhz) fuel n w w' l HZ FR HT W G EN) as (_ & [G1 G2 G3 G4 G5] & LN & x & X0 & X1 & X2).
  rewrite C0 in X1. rewrite L0 in X2. fold t in G3, G4, X1. split; [exact LN|]. split; [lia|]. split; [lia|]. exists x. split; [exact X0|lia].
Qed.
Lemma runs ok top c rom kb m0 ops m a d da fuel : polite dv ok hz top -> top <= 2 ^ 32 -> 2 * hz + hz / fhz + 33 < top ->
  0 <= kb -> mem_new rom kb = Some m0 -> all_allowed [] ops -> mem_run ops m0 = Some (m, a) -> ok 0 d -> hz / fhz + 22 <= 4 * (Z.of_nat fuel - 1) ->
  exists w, runner_start FL dv (mkWorld r c (Some (m, d))) = Done w /\
  forall n, exists w' l, runner_steps FL da 255 124 dv n fuel w = Done (w', l) /\
  let c' := w_cpu w' in let allowed := is_int_allowed (prefix c') (last_ei c') in
  exists w2, runner_nmi FL 255 124 dv w' = Done (w2, if allowed then Some 11 else None) /\
    tc_cur (rn_clock (w_run w2)) = tc_cur (rn_clock (w_run w')) + (if allowed then 11 else 0) /\
    (allowed = false -> w_cpu w2 = c') /\ (allowed = true -> pc (w_cpu w2) = 0x66).
Proof.
  intros PL TOP HT K M0 A R OKD FU.
  assert (FR : 0 <= hz / fhz <= hz). { destruct (Z.eq_dec fhz 0) as [->|NZ]; [rewrite Zdiv_0_r; lia|]. split; [apply Z.div_pos; lia|]. apply Z.div_le_upper_bound; nia. }
  destruct (start_sound FL dv rom kb ok hz top ext fhz r c _ m d PL ltac:(lia) F0 ltac:(lia) N (reached rom kb m0 m ops a K M0 A R) OKD) as (w & ES & S).
  exists w. split; [exact ES|]. intros n.
  destruct (steps_runs FL ch absq OK da dv WL rom kb ok hz top PL TOP (hz / fhz) fuel n w HZ FR ltac:(lia) FU S) as (w' & l & E & S').
  exists w', l. split; [exact E|]. intros c' al.
  destruct (nmi_runs FL dv WL rom kb ok hz top PL TOP (hz / fhz) w' HZ FR ltac:(lia) S') as (w2 & E2 & W2 & X1 & X2).
  exists w2. split; [exact E2|]. split; [rewrite W2; reflexivity|]. split; assumption.
Qed.
End Z.
Lemma terminator_polite hz top : waitless terminator /\ polite terminator (fun _ _ => True) hz top.
Proof.
  split.
  - repeat split; intros; cbn in *; congruence.
  - constructor; intros; cbn; eauto 6; eexists; eexists; try (split; [reflexivity|]); auto.
    + split; auto. discriminate.
    + eexists. split; [reflexivity|]. split; [exact I|discriminate].
Qed.
