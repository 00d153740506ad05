(** C57: what the processor and the runner do to the devices. *)
From Coq Require Import ZArith Bool List Lia.
From Verif Require Import Base Parse Cpu Flavours Prog Trace Internal Exec Range Clock SpecState SpecIsa SpecLog SpecEffects SpecLoop SpecPace SpecRal SpecRunner
  RalMemory RalBus RalMemProofs RalBusProofs RalRunner IsaLink SafeRun IsaRun Ewl StampRun Reach Drive Loop Pace Asks RalRunnerProofs
  RalPio SpecPio RalCtc SpecCtc RalCtcRun RalCtcSoon SpecChain SpecDrive NoAck NoAckRun.
Import ListNotations.
Open Scope Z_scope.

Lemma granted_mono l s : granted false l -> granted s l.
Proof. destruct l as [|[o x] l]; [trivial|]. cbn [granted]. intros [H1 H2]. split; [|exact H2]. destruct o; auto. discriminate H1. Qed.
Lemma granted_app l l' s : granted s l -> granted false l' -> granted s (l ++ l').
Proof.
  revert s. induction l as [|[o x] l IH]; intros s H1 H2; [now apply granted_mono|]. cbn [app granted] in *. destruct H1 as [H1 H3]. split; [exact H1|now apply IH].
Qed.
Lemma in_time_join a b now : in_time now a -> in_time (clock now a) b -> in_time now (a ++ b).
Proof. revert now. induction a as [|o a IH]; intros now H1 H2; [exact H2|]. destruct o; cbn [app in_time clock] in *; destruct H1; auto. Qed.
Lemma in_time_less ops now now' : now' <= now -> Forall (fun o => forall n, o <> BSecond n) ops -> in_time now ops -> in_time now' ops.
Proof. destruct ops as [|o ops]; [trivial|]. intros L F H. inversion F as [|? ? F1 F2]; subst. destruct o; cbn [in_time] in *; try (split; [lia|apply H]). now destruct (F1 delta). Qed.

Section B.
Context {D : Type} (dv : dev D) (hz : Z).
Lemma ops_join a b d d1 d2 la lb : dev_ops dv a d = Some (d1, la) -> dev_ops dv b d1 = Some (d2, lb) -> dev_ops dv (a ++ b) d = Some (d2, la ++ lb).
Proof.
  revert d la. induction a as [|o a IH]; intros d la H1 H2; cbn [app dev_ops] in *.
  - injection H1 as <- <-. exact H2.
  - destruct (dev_do dv o d) as [[d' x]|]; [|discriminate H1]. destruct (dev_ops dv a d') as [[d'' l']|] eqn:E; [|discriminate H1]. cbn [option_map fst snd] in H1.
    injection H1 as -> <-. rewrite (IH _ _ E H2). reflexivity.
Qed.
(** Told [la], from the time [t] to [t']. *)
Record went (s : bool) (t : Z) (d : D) (la : list (bop * ans)) (t' : Z) (d' : D) : Prop := mkWent {
  wn_ops : dev_ops dv (map fst la) d = Some (d', la); wn_time : in_time t (map fst la); wn_clock : clock t (map fst la) = t';
  wn_granted : granted s la; wn_proper : Forall (fun e => proper hz (fst e)) la }.
Lemma went_nil s t d : went s t d [] t d.
Proof. constructor; cbn; auto. Qed.
Lemma went_app s t d la t1 d1 lb t2 d2 : went s t d la t1 d1 -> went false t1 d1 lb t2 d2 -> went s t d (la ++ lb) t2 d2.
Proof.
  intros [A1 A2 A3 A4 A5] [B1 B2 B3 B4 B5]. constructor.
  - rewrite map_app. exact (ops_join _ _ _ _ _ _ _ A1 B1).
  - rewrite map_app. apply in_time_join; [exact A2|]. now rewrite A3.
  - now rewrite map_app, clock_app, A3.
  - now apply granted_app.
  - now apply Forall_app.
Qed.
Lemma went_cons s t o x d d1 la t2 d2 : dev_do dv o d = Some (d1, x) -> (forall n, o <> BSecond n) -> t <= op_time o -> proper hz o ->
  match o with BAck _ _ => s = true | _ => True end -> went (match o, x with BIrq _, ALine true => true | _, _ => false end) (op_time o) d1 la t2 d2 ->
  went s t d ((o, x) :: la) t2 d2.
Proof.
  intros E NS LT P G [B1 B2 B3 B4 B5]. constructor; cbn [map fst].
  - cbn [dev_ops]. rewrite E, B1. reflexivity.
  - destruct o; cbn [in_time op_time] in *; try (split; assumption). now destruct (NS delta).
  - destruct o; cbn [clock op_time] in *; try assumption. now destruct (NS delta).
  - split; assumption.
  - constructor; assumption.
Qed.
Lemma went_mono s t d la t' d' : went false t d la t' d' -> went s t d la t' d'.
Proof. intros [A1 A2 A3 A4 A5]. constructor; auto. now apply granted_mono. Qed.

Context (limit : Z).
Notation H := (ral_host 255 124 dv limit).
Ltac nxt E l' := cbv zeta in E; apply cons_log_inv in E; destruct E as (l' & E & ->).
(** A panic is for ever. *)
Lemma run_dead {A} (p : prog Z unit unit A) : forall k x b' k' l, runl H p None k = Some (x, b', k', l) -> b' = None.
Proof.
  induction p as [a| |f IH|a f IH|a n f IH|a f IH|a f IH|a f IH|a n f IH|f IH|a t f IH|a v t f IH|t f IH|a t f IH|a t f IH
    |a t f IH|a t f IH|a i t f IH|a v t f IH|a f IH|d f IH]; intros k x b' k' l E; cbn [runl] in E.
  1: { now injection E as _ <- _ _. }
  1: { discriminate E. }
  all: cbn [h_read_io h_write_io h_is_irq h_irq_data h_reti h_read_mem h_read_mem16 h_read_opcode h_write_mem h_read_debug ral_host] in E.
  all: unfold bus_read_io, bus_write_io, bus_read_opcode, on_dev, on_dev', on_mem in E; cbn [option_map] in E.
  all: repeat match type of E with context [if ?x then _ else _] => destruct x end.
  all: repeat match type of E with context [let (_, _) := ?x in _] => let F := fresh "F" in destruct x eqn:F; try (injection F as <- <-) end.
  all: nxt E l'; exact (IH _ _ _ _ _ E) || exact (IH _ _ _ _ _ _ E) || exact (IH _ _ _ _ _ _ _ E).
Qed.
Definition hot1 (s : Z) : bool := negb (s =? 0).
Definition goes (s : Z) (t : Z) (d : D) (l : list (ev Z unit unit)) (k' : tclock) (d' : D) : Prop :=
  exists la t', went (hot1 s) t d la t' d' /\ t' <= tc_cur k' /\ tells l la.
Lemma goes_skip s t d e l k' d' : told e = None -> goes (seen s e) t d l k' d' -> goes s t d (e :: l) k' d'.
Proof.
  intros T (la & t' & W & L & TL). exists la, t'. split; [|split; [exact L|now constructor]].
  assert (X : seen s e = 0 \/ s = 1 /\ seen s e = 2).
  { destruct e; auto; cbn [seen]; [destruct (s =? 1) eqn:E; [apply Z.eqb_eq in E; auto|auto]|discriminate T]. }
  destruct X as [X|[-> X]]; rewrite X in W; [now apply went_mono|exact W].
Qed.
Lemma goes_cons s t d d1 e o x l k' d' : told e = Some o -> answered e x -> dev_do dv o d = Some (d1, x) -> (forall n, o <> BSecond n) -> t <= op_time o -> proper hz o ->
  match e with EIrqData _ _ _ _ => s = 2 | _ => True end -> goes (seen s e) (op_time o) d1 l k' d' -> goes s t d (e :: l) k' d'.
Proof.
  intros T A E NS LT P S (la & t' & W & L & TL). exists ((o, x) :: la), t'. split; [|split; [exact L|now constructor]].
  refine (went_cons _ _ _ _ _ _ _ _ _ E NS LT P _ _).
  - destruct e; cbn [told] in T; try discriminate T; try (injection T as <-; exact I); try (destruct (memory_port _); [discriminate T|injection T as <-; exact I]).
    injection T as <-. subst s. reflexivity.
  - destruct e; cbn [told] in T; try discriminate T; try (injection T as <-; exact W); try (destruct (memory_port _); [discriminate T|injection T as <-; exact W]).
    injection T as <-. cbn [answered] in A. subst x. cbn [seen] in W. destruct b; exact W.
Qed.
Lemma tadd_now k n : 0 <= tc_cur k -> 0 <= n -> tc_cur k + n < 2 ^ 32 -> tc_cur (tadd k n) = tc_cur k + n.
Proof. intros. unfold tadd, u32. cbn [tc_cur]. apply Z.mod_small. lia. Qed.
Lemma port_free p : memory_port p = false -> 0 <= u16 p < 65536 /\ u16 p mod 256 <> 124.
Proof. intros P. split; [apply u16_range|]. unfold memory_port in P. apply Z.eqb_neq in P. unfold u16. change 65536 with (256 * 256) in *. rewrite Z.rem_mul_r by lia. rewrite Z.mul_comm, Z.mod_add by lia. now rewrite Z.mod_mod. Qed.
Lemma run_told {A} (p : prog Z unit unit A) : forall e s t m d k x m' d' k' l, 0 <= t <= tc_cur k -> fresh e k ->
  runl H p (Some (m, d)) k = Some (x, Some (m', d'), k', l) -> stamped e l -> Forall (fun e => 0 <= spent e) l -> Forall (fun e => SpecPace.held e = 0) l -> acked s l ->
  tc_cur k + busy l < 2 ^ 32 -> goes s t d l k' d'.
Proof.
  assert (BN : forall (e : ev Z unit unit) l t, Forall (fun e => 0 <= spent e) (e :: l) -> t + busy (e :: l) < 2 ^ 32 -> 0 <= spent e /\ t + spent e < 2 ^ 32 /\ (t + spent e) + busy l < 2 ^ 32).
  { intros e l t F B. inversion F as [|? ? F1 F2]; subst. apply busy_nonneg in F2. rewrite busy_cons in B. lia. }
  induction p as [a| |f IH|a f IH|a n f IH|a f IH|a f IH|a f IH|a n f IH|f IH|a t f IH|a v t f IH|t f IH|a t f IH|a t f IH
    |a t f IH|a t f IH|a i t f IH|a v t f IH|a f IH|dd f IH]; intros e s t0 m d k x m' d' k' l T0 FR E ST SP HE AC TB; cbn [runl] in E.
  1: { injection E as <- <- <- <- <-. exists [], t0. split; [apply went_nil|]. split; [lia|constructor]. }
  1: { discriminate E. }
  all: cbn [h_read_io h_write_io h_is_irq h_irq_data h_reti h_read_mem h_read_mem16 h_read_opcode h_write_mem h_read_debug h_add_irq h_add_m1 h_add_mreq h_add_io ral_host] in E.
  all: unfold tadd' in E.
  Ltac go E l' ST SP HE AC TB BN FR :=
    nxt E l'; destruct (BN _ _ _ SP TB) as (B1 & B2 & B3); destruct ST as [C ST], AC as [AC0 AC]; cbn [covered] in C; inversion SP; inversion HE; subst; cbn [spent SpecPace.held covered] in *; rewrite ?Z.add_0_r in *.
  all: try (go E l' ST SP HE AC TB BN FR; apply goes_skip; [reflexivity|]; eapply IH with (3 := E) (4 := ST) (7 := AC); eauto; try exact I; try reflexivity;
    cbn [h_add_no_mreq h_add_wait ral_host]; unfold M1_CYCLE_TS, IRQ_ACK_CYCLE_TS, MEMRW_CYCLE_TS, IO_CYCLE_TS; rewrite tadd_now by lia; lia).
  - (* ReadIo *) unfold bus_read_io in E. rewrite port_land in E. destruct (memory_port a) eqn:P.
    + go E l' ST SP HE AC TB BN FR. apply goes_skip; [cbn [told]; now rewrite P|]. eapply IH with (3 := E) (4 := ST) (7 := AC); eauto; try exact I; lia.
    + unfold on_dev in E. destruct (dv_read_io dv (u16 a) t d) as [[d1 [y w]]|] eqn:F; [|nxt E l'; now apply run_dead in E].
      go E l' ST SP HE AC TB BN FR. cbn [fresh] in FR. subst t.
      eapply (goes_cons s t0 d d1 _ (BIn (u16 a) (tc_cur k)) (AByte y)); [cbn [told]; now rewrite P|exists y; auto|cbn [dev_do]; now rewrite F|discriminate|cbn [op_time]; lia| |exact I|].
      * split; [cbn [op_time]; lia|now apply port_free].
      * eapply IH with (3 := E) (4 := ST) (7 := AC); eauto; try exact I; cbn [op_time]; lia.
  - (* WriteIo *) unfold bus_write_io in E. rewrite port_land in E. destruct (memory_port a) eqn:P.
    + go E l' ST SP HE AC TB BN FR. apply goes_skip; [cbn [told]; now rewrite P|]. eapply IH with (3 := E) (4 := ST) (7 := AC); eauto; try exact I; lia.
    + unfold on_dev in E. destruct (dv_write_io dv (u16 a) (u8 v) t d) as [[d1 [y w]]|] eqn:F; [|nxt E l'; now apply run_dead in E].
      go E l' ST SP HE AC TB BN FR. cbn [fresh] in FR. subst t.
      eapply (goes_cons s t0 d d1 _ (BOut (u16 a) (u8 v) (tc_cur k)) ANone); [cbn [told]; now rewrite P|reflexivity|cbn [dev_do]; now rewrite F|discriminate|cbn [op_time]; lia| |exact I|].
      * split; [cbn [op_time]; lia|]. destruct (port_free a P). split; [assumption|]. split; [assumption|]. unfold u8. apply Z.mod_pos_bound. reflexivity.
      * eapply IH with (3 := E) (4 := ST) (7 := AC); eauto; try exact I; cbn [op_time]; lia.
  - (* IsIrq *) unfold on_dev in E. destruct (dv_is_irq dv t d) as [[d1 q]|] eqn:F; [|nxt E l'; now apply run_dead in E].
    go E l' ST SP HE AC TB BN FR. cbn [fresh] in FR. subst t.
    eapply (goes_cons s t0 d d1 _ (BIrq (tc_cur k)) (ALine q)); [reflexivity|reflexivity|cbn [dev_do]; now rewrite F|discriminate|cbn [op_time]; lia|split; [cbn [op_time]; lia|exact I]|exact I|].
    eapply IH with (3 := E) (4 := ST) (7 := AC); eauto; try exact I; cbn [op_time]; lia.
  - (* IrqData *) unfold on_dev in E. destruct (dv_irq_data dv (u16 a) t d) as [[d1 [y w]]|] eqn:F; [|nxt E l'; now apply run_dead in E].
    go E l' ST SP HE AC TB BN FR. cbn [fresh] in FR. subst t.
    eapply (goes_cons _ t0 d d1 _ (BAck (u16 a) (tc_cur k)) (AByte y)); [reflexivity|exists y; auto|cbn [dev_do]; now rewrite F|discriminate|cbn [op_time]; lia|split; [cbn [op_time]; lia|apply u16_range]|reflexivity|].
    eapply IH with (3 := E) (4 := ST) (7 := AC); eauto; try exact I; cbn [op_time]; lia.
  - (* Reti *) unfold on_dev in E. destruct (dv_reti dv (u16 a) t d) as [[d1 y]|] eqn:F; [|nxt E l'; now apply run_dead in E].
    go E l' ST SP HE AC TB BN FR. cbn [fresh] in FR. subst t.
    eapply (goes_cons s t0 d d1 _ (BReti (u16 a) (tc_cur k)) ANone); [reflexivity|reflexivity|cbn [dev_do]; now rewrite F|discriminate|cbn [op_time]; lia|split; [cbn [op_time]; lia|apply u16_range]|exact I|].
    eapply IH with (3 := E) (4 := ST) (7 := AC); eauto; try exact I; cbn [op_time]; lia.
  - (* ReadMem *) unfold on_mem in E. destruct (option_map _ _) as [[m1 y]|]; [|nxt E l'; now apply run_dead in E].
    go E l' ST SP HE AC TB BN FR. apply goes_skip; [reflexivity|]. eapply IH with (3 := E) (4 := ST) (7 := AC); eauto; try exact I; lia.
  - (* ReadMem16 *) unfold on_mem in E. destruct (option_map _ _) as [[m1 y]|]; [|nxt E l'; now apply run_dead in E].
    go E l' ST SP HE AC TB BN FR. apply goes_skip; [reflexivity|]. eapply IH with (3 := E) (4 := ST) (7 := AC); eauto; try exact I; lia.
  - (* ReadOpcode *) unfold bus_read_opcode, on_dev' in E. destruct (dv_m1 dv t d) as [d1|] eqn:F; [|cbn [on_mem] in E; nxt E l'; now apply run_dead in E].
    unfold on_mem in E. destruct (m_read_opcode _ _) as [[m1 y]|]; [|nxt E l'; now apply run_dead in E].
    go E l' ST SP HE AC TB BN FR. cbn [fresh] in FR. subst t.
    eapply (goes_cons s t0 d d1 _ (BM1 (tc_cur k)) ANone); [reflexivity|reflexivity|cbn [dev_do]; now rewrite F|discriminate|cbn [op_time]; lia|split; [cbn [op_time]; lia|exact I]|exact I|].
    eapply IH with (3 := E) (4 := ST) (7 := AC); eauto; try exact I; cbn [op_time]; lia.
  - (* ReadDebug *) unfold on_mem in E. destruct (option_map _ _) as [[m1 y]|]; [|nxt E l'; now apply run_dead in E].
    go E l' ST SP HE AC TB BN FR. apply goes_skip; [reflexivity|]. eapply IH with (3 := E) (4 := ST) (7 := AC); eauto; try exact I; lia.
Qed.
End B.

Lemma tells_inner l la : tells l la -> Forall (fun o => (forall n, o <> BSecond n) /\ (forall t, o <> BFrame t) /\ is_reset o = false) (map fst la).
Proof.
  induction 1 as [|e l la T H IH|e l o x la T A H IH]; [constructor|exact IH|]. constructor; [|exact IH]. cbn [fst].
  destruct e; cbn [told] in T; try discriminate T; try (destruct (memory_port _); [discriminate T|]); injection T as <-; split; [discriminate| |discriminate| |discriminate| |discriminate| |discriminate| |discriminate|]; split; reflexivity || discriminate.
Qed.
Lemma inner_counts ops : Forall (fun o => (forall n, o <> BSecond n) /\ (forall t, o <> BFrame t) /\ is_reset o = false) ops -> frame_ends ops = 0%nat /\ resets ops = 0%nat.
Proof.
  induction 1 as [|o ops (H1 & H2 & H3) F [I1 I2]]; [auto|]. unfold frame_ends, resets in *. cbn [filter]. rewrite H3. split; [|exact I2].
  destruct o; try exact I1. now destruct (H2 t).
Qed.
Lemma inner_clock ops : Forall (fun o => (forall n, o <> BSecond n) /\ (forall t, o <> BFrame t) /\ is_reset o = false) ops -> forall t, in_time t ops -> t <= clock t ops.
Proof.
  induction 1 as [|o ops (H1 & H2 & H3) F IH]; intros t H; [cbn; lia|]. destruct o; cbn [in_time clock op_time] in *; try (destruct H as [L H]; specialize (IH _ H); lia). now destruct (H1 delta).
Qed.
Lemma counts_app a b : frame_ends (a ++ b) = (frame_ends a + frame_ends b)%nat /\ resets (a ++ b) = (resets a + resets b)%nat.
Proof. unfold frame_ends, resets. now rewrite !filter_app, !app_length. Qed.

Section R.
Context {Q T D : Type} (FL : Flavour Q) (ch : chip T) (absq : Q -> T).
Hypothesis OK : chip_ok FL ch absq.
Variables (da : bool) (dv : dev D) (hz : Z).
Hypothesis WL : waitless dv.
Notation H lim := (ral_host 255 124 dv lim).
Notation went := (went dv hz).
Lemma leg_told lim n c m d k c' r m' d' k' l t : wf c -> 0 <= tc_cur k < 2 ^ 32 -> lim + 22 < 2 ^ 32 -> 0 <= t <= tc_cur k ->
  runl (H lim) (execute_with_limit FL da n c) (Some (m, d)) k = Some (Some (c', r), Some (m', d'), k', l) ->
  exists la t', went false t d la t' d' /\ t' <= tc_cur k' /\ tells l la.
Proof.
  intros Wc HK HL HT E.
  assert (DA : da = true -> halt c = true -> is_int_allowed (prefix c) (last_ei c) = true).
  { intros -> Hh. unfold execute_with_limit in E. rewrite Hh in E. destruct (is_int_allowed _ _); [reflexivity|discriminate E]. }
  destruct (wpl_at _ _ _ _ _ _ _ _ _ _ _ (execute_with_limit_stm FL da n c Wc DA) E) as [ST W].
  pose proof (run_held (H lim) (ral_no_waits dv lim WL) _ None _ _ _ _ _ _ E (ST None) I) as HE. destruct (held_zero _ HE) as [HZ HP].
  destruct (overshoot FL ch absq OK (H lim) tc_cur lim 0 (2 ^ 32) (ral_metered dv lim) da n c _ k c' r _ k' l Wc E HP) as (O1 & O2 & O3); [lia..|].
  pose proof (wpl_at _ _ _ _ _ _ _ _ _ _ _ (ewl_na FL da n c Wc DA) E) as AC.
  refine (run_told dv hz lim _ None 0 t m d k _ m' d' k' l HT I E (ST None) (spent_nonneg _ None (ST None)) HE AC _). lia.
Qed.
Definition inner (la : list (bop * ans)) : Prop := Forall (fun o => (forall n, o <> BSecond n) /\ (forall t, o <> BFrame t) /\ is_reset o = false) (map fst la).
Lemma frame_told lim fuel n : forall c m d k c' b' k' t, wf c -> 0 <= tc_cur k < 2 ^ 32 -> lim + 22 < 2 ^ 32 -> 0 <= t <= tc_cur k ->
  frame_loop FL da 255 124 dv n fuel lim c (Some (m, d)) k = Done (c', b', k') ->
  exists m' d' la t', b' = Some (m', d') /\ went false t d la t' d' /\ 0 <= t' <= tc_cur k' /\ inner la.
Proof.
  induction n as [|n IH]; intros c m d k c' b' k' t Wc HK HL HT E; [discriminate E|]. cbn [frame_loop] in E.
  destruct (run _ _ _ k) as [[[[[[c1 r]|] b1] k1] g]|] eqn:E1; try discriminate E.
  destruct (leg_rate FL ch absq OK da dv WL _ _ _ _ _ _ _ _ _ _ Wc HK HL E1) as (W1 & Z1 & T1 & L1).
  destruct b1 as [[m1 d1]|]; [|discriminate E]. cbn [with_bus] in E.
  rewrite run_runl in E1. destruct (runl _ _ _ k) as [[[[y b2] k2] l]|] eqn:E2; [|discriminate E1]. injection E1 as -> -> -> _.
  destruct (leg_told _ _ _ _ _ _ _ _ _ _ _ _ t Wc HK HL HT E2) as (la & t1 & WN & TL & TE).
  pose proof (tells_inner _ _ TE) as IN. pose proof (inner_clock _ IN _ (wn_time _ _ _ _ _ _ _ _ WN)) as GE. rewrite (wn_clock _ _ _ _ _ _ _ _ WN) in GE.
  destruct r as [[| |]|]; try discriminate E.
  - assert (KK : 0 <= tc_cur k1 < 2 ^ 32) by lia. assert (TT : 0 <= t1 <= tc_cur k1) by lia.
    destruct (IH _ _ _ _ _ _ _ t1 W1 KK HL TT E) as (m' & d' & lb & t' & -> & WB & TB & IB).
    exists m', d', (la ++ lb), t'. split; [reflexivity|]. split; [exact (went_app _ _ _ _ _ _ _ _ _ _ _ WN WB)|]. split; [exact TB|].
    unfold inner. rewrite map_app. apply Forall_app. now split.
  - injection E as <- <- <-. exists m1, d1, la, t1. split; [reflexivity|]. split; [exact WN|]. split; [lia|exact IN].
Qed.
(** The clock between frames, after a button was pressed perhaps. *)
Record ready (frame t : Z) (w : world Q D) : Prop := mkReady {
  rd_wf : wf (w_cpu w); rd_hz : tc_hz (rn_clock (w_run w)) = hz; rd_frame : rn_frame (w_run w) = frame;
  rd_lim : rn_limit (w_run w) <= tc_cur (rn_clock (w_run w)) <= rn_limit (w_run w) + 33;
  rd_low : hz <= tc_cur (rn_clock (w_run w)); rd_high : rn_limit (w_run w) <= 2 * hz + frame;
  rd_told : t <= tc_cur (rn_clock (w_run w)) <= t + 11 }.
Lemma step_told frame fuel w w' x m d t : 33 <= hz -> 11 <= frame <= hz -> 2 * hz + frame + 33 < 2 ^ 32 -> ready frame t w -> w_bus w = Some (m, d) ->
  runner_step FL da 255 124 dv fuel w = Done (w', x) ->
  exists m' d' la, w_bus w' = Some (m', d') /\ went false t d la (tc_cur (rn_clock (w_run w'))) d' /\
    frame_ends (map fst la) = 1%nat /\ resets (map fst la) = 0%nat /\ ready frame (tc_cur (rn_clock (w_run w'))) w' /\ tc_cur (rn_clock (w_run w')) <= rn_limit (w_run w') + 22.
Proof.
  intros HZ HF HT [Wc G1 G2 G3 G4 G5 G6] EB E. unfold runner_step in E. destruct w as [[k lim fr] c b]. cbn [w_run w_cpu w_bus rn_clock rn_limit rn_frame] in *. subst fr b.
  unfold check_wrap_second in E. rewrite G1 in E. unfold mul32 in E. rewrite (proj2 (Z.ltb_lt _ _)) in E by lia.
  assert (E' : exists (z : Z) kk d0 la t0, tc_hz kk = hz /\ went false t d la t0 d0 /\ 0 <= t0 <= tc_cur kk /\ frame_ends (map fst la) = 0%nat /\ resets (map fst la) = 0%nat /\
    lim - z <= tc_cur kk <= lim - z + 33 /\ hz <= tc_cur kk /\ 0 <= lim - z <= 2 * hz /\
    match frame_loop FL da 255 124 dv fuel fuel (lim - z + frame) c (Some (m, d0)) kk with
    | Panicked => Panicked
    | More => More
    | Done (c, b, k) =>
      with_bus (bus_frame_end dv (tc_cur k) b) (fun b =>
        Done (mkWorld (mkRunner k (lim - z + frame) frame) c b, u32 (tc_cur k - tc_cur kk)))
    end = Done (w', x)).
  { destruct (2 * hz <? tc_cur k) eqn:EW; cbn [checked tc_hz] in E.
    - apply Z.ltb_lt in EW. unfold sub32 in E. rewrite (proj2 (Z.leb_le _ _)) in E by lia. cbn [checked] in E.
      unfold bus_next_second, on_dev' in E. destruct (dv_next_second dv hz d) as [d0|] eqn:EN; [|discriminate E]. cbn [with_bus] in E.
      unfold add32 in E. rewrite (proj2 (Z.ltb_lt _ _)) in E by lia. cbn [checked tc_cur] in E.
      assert (U : u32 (tc_cur k - hz) = tc_cur k - hz) by (unfold u32; apply Z.mod_small; lia). rewrite U in E.
      exists hz, (mkTClock (tc_cur k - hz) hz), d0, [(BSecond hz, ANone)], (t - hz). cbn [tc_hz tc_cur].
      split; [reflexivity|]. split; [|split; [lia|]; split; [reflexivity|]; split; [reflexivity|]; split; [lia|]; split; [lia|]; split; [lia|exact E]].
      constructor; cbn [map fst dev_ops dev_do in_time clock granted]; [rewrite EN; reflexivity|split; [lia|exact I]|reflexivity|auto|].
      constructor; [|constructor]. split; [cbn [op_time fst]; lia|reflexivity].
    - apply Z.ltb_ge in EW. cbn [checked with_bus] in E. unfold add32 in E. rewrite (proj2 (Z.ltb_lt _ _)) in E by lia. cbn [checked tc_cur] in E.
      exists 0, k, d, [], t. split; [exact G1|]. split; [apply went_nil|]. split; [lia|]. split; [reflexivity|]. split; [reflexivity|]. split; [lia|]. split; [lia|]. split; [lia|].
      rewrite Z.sub_0_r. exact E. }
  clear E. destruct E' as (z & kk & d0 & la & t0 & K1 & WN & T0 & C1 & C2 & K2 & K3 & K4 & E).
  destruct (frame_loop _ _ _ _ _ _ _ _ c (Some (m, d0)) kk) as [| |[[c1 b1] k1]] eqn:EL; try discriminate E.
  assert (KK : 0 <= tc_cur kk < 2 ^ 32) by lia. assert (LL : lim - z + frame + 22 < 2 ^ 32) by lia.
  destruct (frame_rate FL ch absq OK da dv WL _ _ _ _ _ _ _ _ _ Wc KK LL EL) as (W1 & Z1 & T1 & L1).
  destruct (frame_told _ _ _ _ _ _ _ _ _ _ t0 Wc KK LL T0 EL) as (m1 & d1 & lb & t1 & -> & WB & TB & IB).
  unfold bus_frame_end, on_dev' in E. destruct (dv_frame_end dv (tc_cur k1) d1) as [d2|] eqn:EF; [|discriminate E]. cbn [with_bus] in E. injection E as <- _.
  cbn [w_run w_cpu w_bus rn_clock rn_limit rn_frame]. exists m1, d2, (la ++ lb ++ [(BFrame (tc_cur k1), ANone)]). split; [reflexivity|].
  split; [|].
  - refine (went_app _ _ _ _ _ _ _ _ _ _ _ WN (went_app _ _ _ _ _ _ _ _ _ _ _ WB _)).
    apply (went_cons dv hz false t1 (BFrame (tc_cur k1)) ANone d1 d2); [cbn [dev_do]; now rewrite EF|discriminate|cbn [op_time]; lia|split; [cbn [op_time]; lia|exact I]|exact I|apply went_nil].
  - rewrite !map_app. destruct (inner_counts _ IB) as [I1 I2]. rewrite !(proj1 (counts_app _ _)), !(proj2 (counts_app _ _)), C1, C2, I1, I2. split; [reflexivity|]. split; [reflexivity|].
    split; [constructor; cbn [w_run w_cpu rn_clock rn_limit rn_frame]; try lia; exact W1|lia].
Qed.
Lemma press_told frame bt w w' m d : 33 <= hz -> 11 <= frame <= hz -> 2 * hz + frame + 33 < 2 ^ 32 -> ready frame (tc_cur (rn_clock (w_run w))) w -> tc_cur (rn_clock (w_run w)) <= rn_limit (w_run w) + 22 -> w_bus w = Some (m, d) ->
  press FL dv bt w = Done w' ->
  exists m' d' la t', w_bus w' = Some (m', d') /\ went false (tc_cur (rn_clock (w_run w))) d la t' d' /\
    frame_ends (map fst la) = 0%nat /\ resets (map fst la) = pressed bt /\ ready frame t' w'.
Proof.
  intros HZ HF HT [Wc G1 G2 G3 G4 G5 G6] GL EB E. destruct w as [[k lim fr] c b]. cbn [w_run w_cpu w_bus rn_clock rn_limit rn_frame] in *. subst fr b. destruct bt; cbn [press] in E.
  - injection E as <-. exists m, d, [], (tc_cur k). split; [reflexivity|]. split; [apply went_nil|]. split; [reflexivity|]. split; [reflexivity|]. now constructor.
  - unfold runner_nmi in E. cbn [w_run w_cpu w_bus rn_clock rn_limit rn_frame] in E. rewrite run_runl in E.
    destruct (runl _ _ _ k) as [[[[[c' q] b'] k'] l]|] eqn:E1; [|discriminate E]. destruct b' as [[m' d']|]; [|discriminate E]. cbn [with_bus] in E. injection E as <-.
    destruct (wpl_at _ _ _ _ _ _ _ _ _ _ _ (nmi_stm FL c Wc) E1) as [ST W]. destruct (wpl_at _ _ _ _ _ _ _ _ _ _ _ (nmi_busy FL c) E1) as [_ B]. cbn [fst snd] in *.
    pose proof (run_held (H 0) (ral_no_waits dv 0 WL) _ None _ _ _ _ _ _ E1 (ST None) I) as HE. destruct (held_zero _ HE) as [HZ' HP].
    pose proof (spent_nonneg _ None (ST None)) as SN. assert (B' : 0 <= busy l <= 11) by (destruct q; lia).
    destruct (track (H 0) tc_cur 0 0 (2 ^ 32) (ral_metered dv 0) _ _ _ _ _ _ _ (tc_cur k) E1 SN HP ltac:(lia) ltac:(auto)) as [_ TK]. specialize (TK ltac:(lia)).
    pose proof (acked_none _ 0 (wpl_at _ _ _ _ _ _ _ _ _ _ _ (nmi_na FL c Wc) E1)) as AC.
    destruct (run_told dv hz 0 _ None 0 (tc_cur k) m d k _ m' d' k' l ltac:(lia) I E1 (ST None) SN HE AC ltac:(lia)) as (la & t' & WN & TL & TE).
    pose proof (tells_inner _ _ TE) as IN. pose proof (inner_clock _ IN _ (wn_time _ _ _ _ _ _ _ _ WN)) as GE. rewrite (wn_clock _ _ _ _ _ _ _ _ WN) in GE.
    destruct (inner_counts _ IN) as [I1 I2]. cbn [w_run w_cpu w_bus rn_clock rn_limit rn_frame].
    exists m', d', la, t'. split; [reflexivity|]. split; [exact WN|]. split; [exact I1|]. split; [exact I2|].
    constructor; cbn [w_run w_cpu w_bus rn_clock rn_limit rn_frame]; try lia; [exact W|rewrite (run_hz dv 0 _ _ _ _ _ _ _ E1); exact G1].
  - unfold runner_reset, bus_reset, on_dev' in E. cbn [w_run w_cpu w_bus rn_clock rn_limit rn_frame] in E. destruct (dv_reset dv (tc_cur k) d) as [d'|] eqn:ER; [|discriminate E]. cbn [with_bus] in E. injection E as <-.
    exists m, d', [(BReset (tc_cur k), ANone)], (tc_cur k). split; [reflexivity|]. split.
    + apply (went_cons dv hz false (tc_cur k) (BReset (tc_cur k)) ANone d d'); [cbn [dev_do]; now rewrite ER|discriminate|cbn [op_time]; lia|split; [cbn [op_time]; lia|exact I]|exact I|apply went_nil].
    + split; [reflexivity|]. split; [reflexivity|]. constructor; cbn [w_run w_cpu w_bus rn_clock rn_limit rn_frame]; try lia. apply wf_reset.
Qed.
Lemma session_told frame fuel bs : 33 <= hz -> 11 <= frame <= hz -> 2 * hz + frame + 33 < 2 ^ 32 -> forall w w' m d,
  ready frame (tc_cur (rn_clock (w_run w))) w -> tc_cur (rn_clock (w_run w)) <= rn_limit (w_run w) + 22 -> w_bus w = Some (m, d) -> session FL da dv fuel bs w = Done w' ->
  exists m' d' la, w_bus w' = Some (m', d') /\ went false (tc_cur (rn_clock (w_run w))) d la (tc_cur (rn_clock (w_run w'))) d' /\
    frame_ends (map fst la) = length bs /\ resets (map fst la) = resets_in bs.
Proof.
  intros HZ HF HT. induction bs as [|bt bs IH]; intros w w' m d RD GL EB E; cbn [session] in E.
  - injection E as <-. exists m, d, []. split; [exact EB|]. split; [apply went_nil|]. auto.
  - destruct (press _ _ bt w) as [| |w1] eqn:E1; try discriminate E. destruct (runner_step _ _ _ _ _ fuel w1) as [| |[w2 x]] eqn:E2; try discriminate E.
    destruct (press_told frame bt w w1 m d HZ HF HT RD GL EB E1) as (m1 & d1 & l1 & t1 & B1 & W1 & F1 & R1 & RD1).
    destruct (step_told frame fuel w1 w2 x m1 d1 t1 HZ HF HT RD1 B1 E2) as (m2 & d2 & l2 & B2 & W2 & F2 & R2 & RD2 & GL2).
    destruct (IH w2 w' m2 d2 RD2 GL2 B2 E) as (m' & d' & l3 & B3 & W3 & F3 & R3).
    exists m', d', (l1 ++ l2 ++ l3). split; [exact B3|]. split; [exact (went_app _ _ _ _ _ _ _ _ _ _ _ W1 (went_app _ _ _ _ _ _ _ _ _ _ _ W2 W3))|].
    rewrite !map_app, !(proj1 (counts_app _ _)), !(proj2 (counts_app _ _)), F1, F2, F3, R1, R2, R3. split; reflexivity.
Qed.
Lemma machine_told ext fhz r bs fuel c m d w w' : runner_new ext fhz hz = Some r -> 0 <= fhz -> 33 <= hz -> 11 <= hz / fhz -> 2 * hz + hz / fhz + 33 < 2 ^ 32 ->
  runner_start FL dv (mkWorld r c (Some (m, d))) = Done w -> session FL da dv fuel bs w = Done w' ->
  exists m' d' ops la, w_bus w' = Some (m', d') /\ dev_ops dv (BReset hz :: ops) d = Some (d', la) /\ in_time 0 (BReset hz :: ops) /\ clock hz ops = tc_cur (rn_clock (w_run w')) /\
    granted false la /\ Forall (proper hz) (BReset hz :: ops) /\ frame_ends ops = length bs /\ resets ops = resets_in bs.
Proof.
  intros N F0 HZ HF HT ES E. destruct (start_geared FL dv ext fhz hz r c _ w F0 ltac:(lia) N ES) as (W & [G1 G2 G3 G4 G5] & C0 & L0 & FR).
  unfold runner_new in N. destruct (clock_is_valid ext hz) as [[|]|]; try discriminate N. destruct (fhz =? 0); [discriminate N|]. injection N as <-.
  unfold runner_start, bus_reset, on_dev' in ES. cbn [w_run w_cpu w_bus rn_clock rn_limit rn_frame tclock_reset tclock_new tc_cur tc_hz] in ES.
  destruct (dv_reset dv hz d) as [d0|] eqn:ER; [|discriminate ES]. cbn [with_bus] in ES. injection ES as ES.
  assert (RD : ready (hz / fhz) (tc_cur (rn_clock (w_run w))) w) by (constructor; try lia; auto).
  destruct (session_told (hz / fhz) fuel bs HZ ltac:(lia) HT w w' m d0 RD ltac:(lia) ltac:(now rewrite <- ES) E) as (m' & d' & la & B & [W1 W2 W3 W4 W5] & C1 & C2).
  rewrite C0 in *. exists m', d', (map fst la), ((BReset hz, ANone) :: la). split; [exact B|]. split; [cbn [dev_ops dev_do]; rewrite ER; cbn [option_map]; now rewrite W1|].
  split; [cbn [in_time op_time]; split; [lia|exact W2]|]. split; [exact W3|]. split; [split; [exact I|exact W4]|]. split; [|auto].
  constructor; [split; [cbn [op_time]; lia|exact I]|]. now apply Forall_map.
Qed.
End R.
