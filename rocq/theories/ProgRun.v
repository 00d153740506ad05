(** From programs on the specification to runs of [execute_with_limit]. *)
From Coq Require Import ZArith Bool List Lia.
From Verif Require Import Base Flags Ops Parse Cpu Flavours Prog Trace Internal Instr Exec Range SafeRun Clock ClockProofs
  SpecAlu SpecState SpecIsa SpecCycles SpecLoop SpecProgram IsaLink IsaCycles IsaExec IsaRun Steps Loop Hoare.
Import ListNotations.
Open Scope Z_scope.

Section Limits.
Context {Q T TS WB RB BS : Type}.
Variable FL : Flavour Q.
Variable ch : chip T.
Variable absq : Q -> T.
Context (OK : chip_ok FL ch absq).
Variable Hs : host TS WB RB BS Z.
Variable mo : BS -> mem.
Context (HC : computer Hs mo).
Variable W : itype.
Context (HW : 0 < bits W) (CK : ts_clock W Hs).
Variables k0 lim : Z.
Context (K0 : in_type W k0) (KL : in_type W lim) (HP : forall k, h_is_past_limit Hs k = (lim <=? k)).
Variable resume : WB -> BS -> BS.
Context (KR : keeps mo resume).
Variables rom top : Z.
Variable P : arch T -> mem -> outs -> Z -> Prop.
Context (PB : forall a m o n, P a m o n -> k0 + n < lim).
Implicit Types c d : cpu Q.

(** Runs cut at breaks, each piece a [drive]. *)
Inductive segs : cpu Q -> BS -> Z -> cpu Q -> BS -> Z -> list (ev TS WB RB) -> Prop :=
| sg_halt fuel c b k c' b' k' l : wf c -> halt c = false -> in_bounds rom top (buses l) ->
    runl Hs (drive FL fuel c) b k = Some (Some (c', Some BHalt), b', k', l) -> segs c b k c' b' k' l
| sg_break fuel w c b k c1 b1 k1 l1 c' b' k' l : wf c -> halt c = false -> in_bounds rom top (buses l1) ->
    runl Hs (drive FL fuel c) b k = Some (Some (c1, Some (BWriteIo w)), b1, k1, l1) ->
    segs c1 (resume w b1) k1 c' b' k' l -> segs c b k c' b' k' (l1 ++ l).
Lemma no_fb l : in_bounds rom top (buses l) -> ~ Exists (fb_ack (TS:=TS) (WB:=WB) (RB:=RB)) l.
Proof.
  induction l as [|e l IH]; intros H X; inversion X; subst.
  - change (buses (e :: l)) with (bus1 e ++ buses l) in H. apply Forall_app in H. destruct H as [H _].
    destruct e; cbn [fb_ack] in *; try contradiction. inversion H; subst. assumption.
  - apply IH; [|assumption]. change (buses (e :: l)) with (bus1 e ++ buses l) in H. apply Forall_app in H. apply H.
Qed.
Lemma segs_limits da c b k c' b' k' l : segs c b k c' b' k' l -> run_with_limits FL da Hs resume c b k c' b' k' l.
Proof.
  induction 1 as [fuel c b k c' b' k' l Hw Hh IB E|fuel w c b k c1 b1 k1 l1 c' b' k' l Hw Hh IB E _ IH].
  - destruct (limit_running FL ch absq OK Hs da c b k Hw Hh) as [_ L]. destruct (L _ _ _ _ _ _ E) as (f & d & E' & [->|[_ X]]).
    + exact (rl_halt _ _ _ _ f _ _ _ _ _ _ _ E').
    + exfalso. exact (no_fb _ IB X).
  - destruct (limit_running FL ch absq OK Hs da c b k Hw Hh) as [_ L]. destruct (L _ _ _ _ _ _ E) as (f & d & E' & [->|[_ X]]).
    + exact (rl_break _ _ _ _ f _ _ _ _ _ _ _ _ _ _ _ _ E' IH).
    + exfalso. exact (no_fb _ IB X).
Qed.
(** A step in front. *)
Lemma drive_step n c b k c1 b1 k1 l1 r b2 k2 l2 : h_is_past_limit Hs k = false ->
  runl Hs (execute_next FL false c) b k = Some ((c1, None), b1, k1, l1) ->
  runl Hs (drive FL n c1) b1 k1 = Some (r, b2, k2, l2) ->
  runl Hs (drive FL (S n) c) b k = Some (r, b2, k2, KPast false :: l1 ++ l2).
Proof.
  intros H E1 E2. cbn [drive runl]. rewrite H. cbv zeta. rewrite runl_bind, E1. cbn [fst snd]. rewrite E2. reflexivity.
Qed.
Lemma drive_end c b k c1 e b1 k1 l1 : h_is_past_limit Hs k = false ->
  runl Hs (execute_next FL false c) b k = Some ((c1, Some e), b1, k1, l1) ->
  runl Hs (drive FL 1 c) b k = Some (Some (c1, Some e), b1, k1, KPast false :: l1).
Proof.
  intros H E1. cbn [drive runl]. rewrite H. cbv zeta. rewrite runl_bind, E1. cbn [fst snd runl]. rewrite app_nil_r. reflexivity.
Qed.
Lemma segs_step c b k c1 b1 k1 l1 c' b' k' l : wf c -> halt c = false -> h_is_past_limit Hs k = false -> in_bounds rom top (buses l1) ->
  runl Hs (execute_next FL false c) b k = Some ((c1, None), b1, k1, l1) ->
  segs c1 b1 k1 c' b' k' l -> segs c b k c' b' k' (KPast false :: l1 ++ l).
Proof.
  intros Hw Hh HL IB E S. destruct S as [fuel c1 b1 k1 c' b' k' l Hw1 Hh1 IB1 E1|fuel w c1 b1 k1 c2 b2 k2 l2 c' b' k' l Hw1 Hh1 IB1 E1 S].
  - apply sg_halt with (fuel := S fuel); try assumption.
    + change (buses (KPast false :: l1 ++ l)) with (buses (l1 ++ l)). rewrite buses_app'. now apply Forall_app.
    + exact (drive_step _ _ _ _ _ _ _ _ _ _ _ _ HL E E1).
  - rewrite app_assoc. change (KPast false :: (l1 ++ l2) ++ l) with ((KPast false :: (l1 ++ l2)) ++ l).
    apply sg_break with (fuel := Datatypes.S fuel) (w := w) (c1 := c2) (b1 := b2) (k1 := k2); try assumption.
    + change (buses (KPast false :: l1 ++ l2)) with (buses (l1 ++ l2)). rewrite buses_app'. now apply Forall_app.
    + exact (drive_step _ _ _ _ _ _ _ _ _ _ _ _ HL E E1).
Qed.
Lemma early n : 0 <= n -> k0 + n < lim -> h_is_past_limit Hs (wrap W (k0 + n)) = false.
Proof.
  intros H1 H2. rewrite HP. apply Z.leb_gt. rewrite wrap_id; [assumption|exact HW|].
  clear - K0 KL H1 H2. unfold in_type in *. destruct (signed W); lia.
Qed.
Theorem will_segs : forall a m o n, will (WB:=WB) (RB:=RB) ch rom top P a m o n ->
  forall c b k, wf c -> abs absq c = a -> (forall x, mo b x = m x) -> 0 <= n -> k = wrap W (k0 + n) ->
  (halt c = true /\ P a m o n) \/
  (halt c = false /\ exists c' b' k' l m', segs c b k c' b' k' l /\ wf c' /\ halt c' = true /\ (forall x, mo b' x = m' x) /\
    0 <= tsum (clocks l) /\ k' = wrap W (k0 + n + tsum (clocks l)) /\
    P (abs absq c') m' (o ++ outs_of (buses l)) (n + tsum (clocks l)) /\ in_bounds rom top (buses l)).
Proof.
  apply (will_run ch rom top P (fun a m o n => forall c b k, wf c -> abs absq c = a -> (forall x, mo b x = m x) -> 0 <= n -> k = wrap W (k0 + n) ->
  (halt c = true /\ P a m o n) \/
  (halt c = false /\ exists c' b' k' l m', segs c b k c' b' k' l /\ wf c' /\ halt c' = true /\ (forall x, mo b' x = m' x) /\
    0 <= tsum (clocks l) /\ k' = wrap W (k0 + n + tsum (clocks l)) /\
    P (abs absq c') m' (o ++ outs_of (buses l)) (n + tsum (clocks l)) /\ in_bounds rom top (buses l)))).
  - intros a m o n HH HPa c b k _ <- _ _ _. left. split; [exact HH|exact HPa].
  - intros a m o n HH HI IH c b k Hw <- HM Hn Hk. change (aHALT (abs absq c)) with (halt c) in HH. right. split; [exact HH|].
    destruct (next_run FL ch absq OK Hs mo HC false c b k Hw) as (c1 & r & b1 & k1 & l1 & E1 & W1 & A1 & M1 & N1).
    assert (Hk1 : k1 = wrap W (k0 + (n + tsum (clocks l1)))).
    { rewrite (runl_ts W Hs _ HW CK b k _ b1 k1 l1 (eq_ind_r (in_type W) (wrap_range W HW _) Hk) E1), Hk, wrap_add by exact HW.
      f_equal. lia. }
    apply (ram_log_ext _ _ m) in M1; [|exact HM].
    destruct (IH _ _ _ _ _ A1 M1 N1) as (m1 & EM & EE & H1 & IB & TN). clear IH.
    destruct r; cbn [ends result_of] in *; try contradiction.
    + (* goes on *)
      destruct (H1 c1 b1 k1 W1 eq_refl EM ltac:(lia) Hk1) as [[X _]|(_ & c2 & b2 & k2 & l2 & m2 & S2 & W2 & H2 & EM2 & T2 & K2 & P2 & IB2)];
        [change (aHALT (abs absq c1)) with (halt c1) in EE; congruence|].
      exists c2, b2, k2, (KPast false :: l1 ++ l2), m2.
      change (buses (KPast false :: l1 ++ l2)) with (buses (l1 ++ l2)). change (clocks (KPast false :: l1 ++ l2)) with (clocks (l1 ++ l2)).
      rewrite buses_app', clocks_app', outs_app, app_assoc, ticks_app.
      split; [apply segs_step with (c1 := c1) (b1 := b1) (k1 := k1); try assumption; rewrite Hk; apply early; [lia|apply PB in P2; lia]|].
      repeat (split; [assumption|]). split; [lia|]. split; [subst k2; f_equal; lia|]. split; [rewrite Z.add_assoc; assumption|now apply Forall_app].
    + (* HALT *)
      destruct (H1 c1 b1 k1 W1 eq_refl EM ltac:(lia) Hk1) as [[X P1]|[X _]];
        [|change (aHALT (abs absq c1)) with (halt c1) in EE; congruence].
      exists c1, b1, k1, (KPast false :: l1), m1.
      change (buses (KPast false :: l1)) with (buses l1). change (clocks (KPast false :: l1)) with (clocks l1).
      split; [apply sg_halt with (fuel := 1%nat); try assumption; apply drive_end; try assumption; rewrite Hk; apply early; [lia|apply PB in P1; lia]|].
      repeat (split; [assumption|]). split; [subst k1; f_equal; lia|]. now split.
    + (* OUT *)
      assert (EM' : forall x, mo (resume w b1) x = m1 x) by (intros; rewrite KR; apply EM).
      destruct (H1 c1 (resume w b1) k1 W1 eq_refl EM' ltac:(lia) Hk1) as [[X _]|(_ & c2 & b2 & k2 & l2 & m2 & S2 & W2 & H2 & EM2 & T2 & K2 & P2 & IB2)];
        [change (aHALT (abs absq c1)) with (halt c1) in EE; congruence|].
      exists c2, b2, k2, ((KPast false :: l1) ++ l2), m2.
      change (buses ((KPast false :: l1) ++ l2)) with (buses (l1 ++ l2)). change (clocks ((KPast false :: l1) ++ l2)) with (clocks (l1 ++ l2)).
      rewrite buses_app', clocks_app', outs_app, app_assoc, ticks_app.
      split; [apply sg_break with (fuel := 1%nat) (w := w) (c1 := c1) (b1 := b1) (k1 := k1); try assumption;
              apply drive_end; try assumption; rewrite Hk; apply early; [lia|apply PB in P2; lia]|].
      repeat (split; [assumption|]). split; [lia|]. split; [subst k2; f_equal; lia|]. split; [rewrite Z.add_assoc; assumption|now apply Forall_app].
Qed.
Theorem will_limits da a m o : will (WB:=WB) (RB:=RB) ch rom top P a m o 0 ->
  forall c b, wf c -> abs absq c = a -> (forall x, mo b x = m x) -> halt c = false ->
  exists c' b' k' l m', run_with_limits FL da Hs resume c b k0 c' b' k' l /\ wf c' /\ halt c' = true /\ (forall x, mo b' x = m' x) /\
    k' = k0 + tsum (clocks l) /\ P (abs absq c') m' (o ++ outs_of (buses l)) (tsum (clocks l)) /\ in_bounds rom top (buses l).
Proof.
  intros HA c b Hw Ha HM HH.
  destruct (will_segs _ _ _ _ HA c b k0 Hw Ha HM (Z.le_refl _)) as [[X _]|(_ & c' & b' & k' & l & m' & S & W' & H' & M' & T' & K' & P' & I')].
  - rewrite Z.add_0_r. symmetry. now apply wrap_id.
  - congruence.
  - exists c', b', k', l, m'. split; [now apply segs_limits|]. repeat (split; [assumption|]).
    rewrite Z.add_0_l, ?Z.add_0_r in *. split; [|now split]. rewrite K'. apply wrap_id; [exact HW|].
    apply PB in P'. clear - K0 KL T' P'. unfold in_type in *. destruct (signed W); lia.
Qed.
End Limits.
