(** C66: the thread runs on, whatever messages come while it is not in debug mode. *)
From Coq Require Import ZArith Bool List Lia.
From Verif Require Import Base Parse Cpu Flavours Prog Trace Internal Exec Range Clock SpecState SpecIsa SpecLog SpecEffects SpecLoop SpecPace SpecRal SpecRunner
  RalMemory RalBus RalMemProofs RalBusProofs RalRunner IsaLink SafeRun IsaRun Ewl StampRun Reach Drive Loop Pace Asks RalRunnerProofs RalDebug RalThread RalLoop SpecRalLoop.
Import ListNotations.
Open Scope list_scope.
Open Scope Z_scope.

Section R.
Context {Q T D : Type} (FL : Flavour Q) (ch : chip T) (absq : Q -> T).
Hypothesis OK : chip_ok FL ch absq.
Variables (da : bool) (dv : dev D).
Hypothesis WL : waitless dv.
Notation H lim := (ral_host 255 124 dv lim).
Variables (rom : list Z) (kb : Z) (ok : Z -> D -> Prop) (hz top : Z).
Hypotheses (PL : polite dv ok hz top) (TOP : top <= 2 ^ 32) (PA : patient ok top).
Notation okb := (okb rom kb ok).
Notation sound := (sound rom kb ok hz).
(** After an NMI between two frames. *)
Definition late (frame : Z) (w : world Q D) : Prop :=
  inv39 (w_cpu w) /\ (let r := w_run w in tc_hz (rn_clock r) = hz /\ rn_frame r = frame /\ rn_limit r <= tc_cur (rn_clock r) <= rn_limit r + 33 /\
    hz <= tc_cur (rn_clock r) /\ rn_limit r <= 2 * hz + frame) /\
  exists h m d, w_bus w = Some (m, d) /\ matches rom kb h m /\ ok (tc_cur (rn_clock (w_run w))) d.
Lemma sound_late frame w : sound frame w -> late frame w.
Proof. intros (IV & [G1 G2 G3 G4 G5] & B). split; [exact IV|]. split; [|exact B]. cbv zeta. repeat split; auto; lia. Qed.
Lemma step_late frame fuel w : 33 <= hz -> 11 <= frame <= hz -> 2 * hz + frame + 33 < top -> frame + 22 <= 4 * (Z.of_nat fuel - 1) -> late frame w ->
  exists w' t, runner_step FL da 255 124 dv fuel w = Done (w', t) /\ sound frame w'.
Proof.
  intros HZ HF HT FU (IV & (G1 & G2 & G3 & G4 & G5) & h & m & d & EB & M & OKD).
  destruct w as [[k lim fr] c b]. cbn [w_run w_cpu w_bus rn_clock rn_limit rn_frame] in *. subst fr b.
  assert (X : exists (x : bool) kk d', let z := if x then hz else 0 in tc_hz kk = hz /\ tc_cur kk = tc_cur k - z /\ ok (tc_cur kk) d' /\
    hz <= tc_cur kk <= 2 * hz + 33 /\ 0 <= lim - z <= 2 * hz /\
    runner_step FL da 255 124 dv fuel (mkWorld (mkRunner k lim frame) c (Some (m, d))) =
    match frame_loop FL da 255 124 dv fuel fuel (lim - z + frame) c (Some (m, d')) kk with
    | Panicked => Panicked
    | More => More
    | Done (c, b, k) =>
      with_bus (bus_frame_end dv (tc_cur k) b) (fun b =>
        Done (mkWorld (mkRunner k (lim - z + frame) frame) c b, u32 (tc_cur k - tc_cur kk)))
    end).
  { unfold runner_step. cbn [w_run w_cpu w_bus rn_clock rn_limit rn_frame].
    unfold check_wrap_second. rewrite G1. unfold mul32. rewrite (proj2 (Z.ltb_lt (2 * hz) _)) by lia.
    destruct (2 * hz <? tc_cur k) eqn:EW; cbn [checked tc_hz].
    - apply Z.ltb_lt in EW. exists true. unfold sub32. rewrite (proj2 (Z.leb_le hz lim)) by lia. cbn [checked].
      destruct (pl_second _ _ _ _ PL _ _ OKD EW ltac:(lia)) as (d' & E' & OK'). unfold bus_next_second, on_dev'. rewrite E'. cbn [with_bus].
      unfold add32. rewrite (proj2 (Z.ltb_lt (lim - hz + frame) _)) by lia. cbn [checked tc_cur].
      assert (U : u32 (tc_cur k - hz) = tc_cur k - hz) by (unfold u32; apply Z.mod_small; lia). rewrite U.
      exists (mkTClock (tc_cur k - hz) hz), d'. cbn [tc_hz tc_cur]. split; [reflexivity|]. split; [reflexivity|]. split; [exact OK'|]. split; [lia|]. split; [lia|reflexivity].
    - apply Z.ltb_ge in EW. exists false. cbn [checked with_bus].
      unfold add32. rewrite (proj2 (Z.ltb_lt (lim + frame) _)) by lia. cbn [checked tc_cur].
      exists k, d. cbn zeta. rewrite !Z.sub_0_r. split; [exact G1|]. split; [reflexivity|]. split; [exact OKD|]. split; [lia|]. split; [lia|reflexivity]. }
  destruct X as (x & kk & d' & K1 & K2 & OK' & K3 & K4 & E). set (z := if x then hz else 0) in *. rewrite E.
  destruct (frame_runs FL ch absq OK da dv WL rom kb ok hz top PL TOP (lim - z + frame) fuel ltac:(lia) fuel c (Some (m, d')) kk IV) as (c1 & b1 & k1 & EL & I1 & (h1 & m1 & d1 & -> & M1 & t1 & T1 & OK1) & Z1 & T2 & L1); [|lia..|].
  { exists h, m, d'. split; [reflexivity|]. split; [exact M|]. exists (tc_cur kk). split; [lia|exact OK']. }
  rewrite EL. destruct (pl_frame_end _ _ _ _ PL _ _ _ OK1 T1 ltac:(lia)) as (d2 & E2 & OK2). unfold bus_frame_end, on_dev'. rewrite E2. cbn [with_bus].
  eexists _, _. split; [reflexivity|]. split; [exact I1|]. cbn [w_run w_cpu w_bus rn_clock rn_limit rn_frame].
  split; [constructor; cbn [rn_clock rn_limit rn_frame]; lia|]. exists h1, m1, d2. auto.
Qed.
(** A try: the machine is late if the NMI was accepted, and as it was if not. *)
Lemma nmi_halt (c : cpu Q) : wpl (nmi FL c) (fun x (l : list (ev Z unit unit)) => snd x = true -> halt (fst x) = false).
Proof.
  unfold nmi. destruct (is_int_allowed _ _) eqn:EA; [|cbn; discriminate]. unfold nmi_no_check. cbv zeta.
  destruct (halt _) eqn:EH; unfold on_cpu, push16, push2; cbn in *; auto.
Qed.
Lemma try_nmi frame w : 33 <= hz -> 11 <= frame <= hz -> 2 * hz + frame + 33 < top -> sound frame w ->
  exists w' r, runner_nmi FL 255 124 dv w = Done (w', r) /\ late frame w' /\ (r = None -> sound frame w').
Proof.
  intros HZ HF HT S. pose proof S as (IV & G & h & m & d & EB & M & OKD). destruct G as [G1 G2 G3 G4 G5].
  destruct (nmi_runs FL dv WL rom kb ok hz top PL TOP frame w ltac:(lia) ltac:(lia) ltac:(lia) S) as (w' & E' & R' & X1 & X2). cbv zeta in E', R'.
  set (r := w_run w) in *. set (c := w_cpu w) in *. set (q := is_int_allowed (prefix c) (last_ei c)) in *.
  exists w', (if q then Some 11 else None). split; [exact E'|].
  pose proof (proj1 IV) as Wc.
  pose proof (wpl_run (H 0) _ _ (w_bus w) (rn_clock r) (nmi_stm FL c Wc)) as (x & b' & k' & l & E & ST & WX).
  destruct (wpl_at _ _ _ _ _ _ _ _ _ _ _ (nmi_busy FL c) E) as [X B]. pose proof (wpl_at _ _ _ _ _ _ _ _ _ _ _ (nmi_halt c) E) as HX. destruct x as [c' q']. cbn [fst snd] in *. fold q in X. subst q'.
  pose proof (run_held (H 0) (ral_no_waits dv 0 WL) _ None _ _ _ _ _ _ E (ST None) I) as HE.
  pose proof (spent_nonneg _ None (ST None)) as SN. destruct (held_zero _ HE) as [HZ' HP].
  assert (B' : 0 <= busy l <= 11) by (destruct q; lia).
  destruct (track (H 0) tc_cur 0 0 (2 ^ 32) (ral_metered dv 0) _ _ _ _ _ _ _ (tc_cur (rn_clock r)) E SN HP ltac:(lia) ltac:(auto)) as [_ TK].
  specialize (TK ltac:(lia)).
  assert (W : well rom kb ok b' k' l 0).
  { pose proof E as E0. rewrite EB in E0. eapply run_polite with (7 := E0) (8 := ST None); eauto; try exact I; try lia; [exists (tc_cur (rn_clock r)); split; [lia|exact OKD]|intros ?; lia]. }
  destruct W as [(h1 & m1 & d1 & -> & M1 & t1 & T1 & O1) _].
  unfold runner_nmi in E'. fold r c in E'. rewrite run_runl, E in E'. cbn [with_bus] in E'. injection E' as E' _. subst w'. cbn [w_run w_cpu w_bus] in *.
  injection R' as R1. rewrite G2 in *.
  assert (IV' : inv39 c').
  { destruct q eqn:EQ; [|rewrite (X1 eq_refl); exact IV]. split; [exact WX|]. intros Y. rewrite (HX eq_refl) in Y. discriminate Y. }
  assert (O2 : ok (tc_cur k') d1) by (apply (PA t1); [exact O1|lia|destruct q; lia]).
  assert (K1 : tc_cur k' = tc_cur (rn_clock r) + (if q then 11 else 0)) by (rewrite R1; reflexivity).
  assert (K2 : tc_hz k' = hz) by (rewrite R1; reflexivity).
  split.
  - split; [exact IV'|]. split; [cbn [w_run rn_clock rn_limit rn_frame]; repeat split; auto; destruct q; lia|]. exists h1, m1, d1. auto.
  - intros Y. destruct q; [discriminate Y|]. split; [exact IV'|]. split; [constructor; cbn [w_run rn_clock rn_limit rn_frame]; auto; lia|]. exists h1, m1, d1. auto.
Qed.
Lemma reset_sound frame w : 33 <= hz -> 11 <= frame <= hz -> 2 * hz + frame + 33 < top -> sound frame w -> exists w', runner_reset FL dv w = Done w' /\ sound frame w'.
Proof.
  intros HZ HF HT (IV & G & h & m & d & EB & M & OKD). pose proof G as [G1 G2 G3 G4 G5]. unfold runner_reset. rewrite EB.
  destruct (pl_reset _ _ _ _ PL _ (tc_cur (rn_clock (w_run w))) d OKD ltac:(lia) ltac:(lia)) as (d' & E & O'). unfold bus_reset, on_dev'. rewrite E. cbn [with_bus].
  eexists. split; [reflexivity|]. split; [|split; [exact G|exists h, m, d'; auto]]. split; [apply wf_reset|]. intros X. discriminate X.
Qed.
Variable search : list Z -> Z -> nat + nat.
Variables (n sec : nat) (q0 : Q).
Lemma thread_runs frame : 33 <= hz -> 11 <= frame <= hz -> 2 * hz + frame + 33 < top -> frame + 22 <= 4 * (Z.of_nat n - 1) ->
  forall ps w req, late frame w -> (req = true -> sound frame w) -> Forall plain ps -> exists x, thread_run FL da 255 124 dv search n sec q0 (mkThread w req false) ps = Done x.
Proof.
  intros HZ HF HT FU. induction ps as [|p ps IH]; intros w req L S P; [eexists; reflexivity|]. inversion P as [|? ? P1 P2]; subst.
  cbn [thread_run]. unfold turn. cbn [th_debug th_world th_nmi]. unfold run_turn.
  assert (A : exists w1 req1 l1, pending_nmi FL 255 124 dv w req = Done (w1, req1, l1) /\ late frame w1).
  { unfold pending_nmi. destruct req; [|eexists _, _, _; split; [reflexivity|exact L]].
    destruct (try_nmi frame w HZ HF HT (S eq_refl)) as (w1 & r & E & L1 & _). rewrite E. cbn [oseq fst snd]. eexists _, _, _. split; [reflexivity|exact L1]. }
  destruct A as (w1 & req1 & l1 & -> & L1). cbn [oseq]. destruct (step_late frame n w1 HZ HF HT FU L1) as (w2 & ts & -> & S2). cbn [oseq]. cbv zeta.
  assert (G : forall l w3 req3, late frame w3 -> (req3 = true -> sound frame w3) -> exists x : option (thread Q D) * list event, oseq (Done (Some (mkThread w3 req3 false), l))
    (fun x => match fst x with None => Done x | Some t => oseq (thread_run FL da 255 124 dv search n sec q0 t ps) (fun y => Done (fst y, snd x ++ snd y)) end) = Done x).
  { intros l w3 req3 L3 S3. cbn [oseq fst snd]. destruct (IH w3 req3 L3 S3 P2) as (x & ->). cbn [oseq]. eexists. reflexivity. }
  unfold plain, enters in P1.
  destruct p as [[]| |]; try (exfalso; tauto).
  - eexists. reflexivity.
  - destruct (reset_sound frame w2 HZ HF HT S2) as (w3 & -> & S3). apply G; [now apply sound_late|auto].
  - destruct (try_nmi frame w2 HZ HF HT S2) as (w3 & r & -> & L3 & S3). cbn [oseq fst snd]. apply G; [exact L3|]. destruct r; [discriminate|auto].
  - apply G; [now apply sound_late|auto].
  - apply G; [now apply sound_late|auto].
  - eexists. reflexivity.
Qed.
End R.
Lemma runs_on {Q T D} (FL : Flavour Q) (ch : chip T) (absq : Q -> T) : chip_ok FL ch absq ->
  forall (dv : dev D) ext fhz hz r, waitless dv -> 0 <= fhz -> runner_new ext fhz hz = Some r -> 33 <= hz -> 11 <= hz / fhz ->
  forall ok top c rom kb m0 ops m a d da fuel, polite dv ok hz top -> patient ok top -> top <= 2 ^ 32 -> 2 * hz + hz / fhz + 33 < top ->
  0 <= kb -> mem_new rom kb = Some m0 -> all_allowed [] ops -> mem_run ops m0 = Some (m, a) -> ok 0 d -> hz / fhz + 22 <= 4 * (Z.of_nat fuel - 1) ->
  exists w, runner_start FL dv (mkWorld r c (Some (m, d))) = Done w /\
  forall search sec q0 ps, Forall plain ps -> exists x, thread_run FL da 255 124 dv search fuel sec q0 (mkThread w false false) ps = Done x.
Proof.
  intros OK dv ext fhz hz r WL F0 N HZ HF ok top c rom kb m0 ops m a d da fuel PL PA TOP HT K M0 A R OKD FU.
  assert (FR : 0 <= hz / fhz <= hz). { destruct (Z.eq_dec fhz 0) as [->|NZ]; [rewrite Zdiv_0_r; lia|]. split; [apply Z.div_pos; lia|]. apply Z.div_le_upper_bound; nia. }
  destruct (start_sound FL dv rom kb ok hz top ext fhz r c _ m d PL ltac:(lia) F0 ltac:(lia) N (reached rom kb m0 m ops a K M0 A R) OKD) as (w & ES & S).
  exists w. split; [exact ES|]. intros search sec q0 ps P.
  exact (thread_runs FL ch absq OK da dv WL rom kb ok hz top PL TOP PA search fuel sec q0 (hz / fhz) HZ ltac:(lia) HT FU ps w false (sound_late rom kb ok hz _ w S) ltac:(discriminate) P).
Qed.
