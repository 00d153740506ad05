(** [execute_with_limit] cut into slices: C47. *)
From Coq Require Import ZArith Bool List Lia.
From Verif Require Import Base Flags Ops Parse Cpu Flavours Prog Trace Internal Instr Exec Range Safe SafeEntry SafeRun
  SpecAlu SpecState SpecIsa SpecCycles SpecStep SpecReach SpecLog SpecLoop SpecSlice Quiet QuietRun StampRun
  IsaLink IsaRun Steps Lock Accessors Control Reach Drive Loop.
Import ListNotations.
Open Scope Z_scope.

Lemma runl_limited {TS WB RB BS CK A} past (H : host TS WB RB BS CK) (p : prog TS WB RB A) : forall P dbg b k x b' k' l,
  runl H p b k = Some (x, b', k', l) -> Forall (quiet dbg P) l -> runl (limited past H) p b k = Some (x, b', k', l).
Proof.
  induction p; intros P dbg b0 k0 x b' k' l E F; cbn [runl] in E |- *.
  1: { exact E. }
  1: { discriminate E. }
  all: cbn [limited h_is_past_limit h_add_irq h_add_no_mreq h_add_m1 h_add_mreq h_add_io h_add_wait h_as_ts
    h_read_io h_write_io h_is_irq h_irq_data h_reti h_read_mem h_read_mem16 h_read_opcode h_write_mem h_read_debug].
  all: repeat match goal with H : context [let (_, _) := ?x in _] |- _ => let E := fresh "EH" in destruct x eqn:E end.
  all: cbv zeta in *.
  all: match type of E with cons_log _ ?r = _ => destruct r as [[[[? ?] ?] ?]|] eqn:ER; [|discriminate E] end.
  all: cbn [cons_log] in E; injection E as <- <- <- <-; apply Forall_cons_iff in F; destruct F as [F1 F2].
  1: contradiction.
  all: match goal with
    | IH : forall P dbg b k x b' k' l, _ , R : runl _ _ _ _ = _ |- _ => rewrite (IH _ _ _ _ _ _ _ _ R F2)
    | IH : forall y P dbg b k x b' k' l, _ , R : runl _ (_ _) _ _ = _ |- _ => rewrite (IH _ _ _ _ _ _ _ _ _ R F2)
    | IH : forall y z P dbg b k x b' k' l, _ , R : runl _ (_ _ _) _ _ = _ |- _ => rewrite (IH _ _ _ _ _ _ _ _ _ _ R F2) end.
  all: reflexivity.
Qed.

Section L.
Context {TS WB RB : Type}.
Notation log := (list (ev TS WB RB)).
Lemma actions_app (l l' : log) : actions (l ++ l') = actions l ++ actions l'.
Proof. apply filter_app. Qed.
Lemma actions_unsampled (l : log) : actions l = actions (unsampled l).
Proof.
  induction l as [|e l IH]; [reflexivity|]. unfold actions, unsampled in *. cbn [filter].
  destruct e; cbn [acts not_sample filter]; rewrite ?IH; reflexivity.
Qed.
Lemma fb_actions (l : log) : Exists fb_ack l <-> Exists fb_ack (actions l).
Proof.
  unfold actions. rewrite !Exists_exists. split; intros (e & I & F); exists e.
  - split; [|exact F]. apply filter_In. split; [exact I|]. now destruct e.
  - split; [|exact F]. now apply filter_In in I.
Qed.
Lemma fb_same (l l' : log) : actions l = actions l' -> ~ Exists fb_ack l -> ~ Exists fb_ack l'.
Proof. intros E N X. apply N, fb_actions. rewrite E. apply fb_actions in X. exact X. Qed.
End L.

Section S.
Context {Q T TS WB RB : Type}.
Variables (FL : Flavour Q) (ch : chip T) (absq : Q -> T).
Context (OK : chip_ok FL ch absq).
Context {BS CK : Type} (H : host TS WB RB BS CK).
Implicit Types c d : cpu Q.
Notation log := (list (ev TS WB RB)).

(** [execute_with_limit] and [drive], halted or not. *)
Lemma to_drive past da fuel c b k c' r b' k' l : irq_pure H -> inv39 c -> ~ Exists fb_ack l ->
  runl (limited past H) (execute_with_limit FL da fuel c) b k = Some (Some (c', r), b', k', l) ->
  exists m l', runl (limited past H) (drive FL m c) b k = Some (Some (c', r), b', k', l') /\ actions l = actions l'.
Proof.
  intros PU [W I] NF E. destruct (halt c) eqn:HH.
  - destruct (I eq_refl) as [I1 I2].
    destruct (proj1 (limit_halted FL ch absq OK (limited past H) da c b k W HH I1 I2 PU) _ _ _ _ _ _ E)
      as (m & d & l' & D & U & [->|[_ X]]); [|contradiction].
    exists m, l'. split; [exact D|]. now rewrite actions_unsampled, U, <- actions_unsampled.
  - destruct (proj1 (limit_running FL ch absq OK (limited past H) da c b k W HH) _ _ _ _ _ _ E)
      as (m & d & D & [->|[_ X]]); [|contradiction]. eauto.
Qed.
Lemma of_drive past da m c b k c' r b' k' l' : irq_pure H -> inv39 c -> ~ Exists fb_ack l' ->
  runl (limited past H) (drive FL m c) b k = Some (Some (c', r), b', k', l') ->
  exists fuel l, runl (limited past H) (execute_with_limit FL da fuel c) b k = Some (Some (c', r), b', k', l) /\
    actions l = actions l'.
Proof.
  intros PU [W I] NF E. destruct (halt c) eqn:HH.
  - destruct (I eq_refl) as [I1 I2].
    destruct (proj2 (limit_halted FL ch absq OK (limited past H) da c b k W HH I1 I2 PU) _ _ _ _ _ _ E)
      as (n & d & l & D & U & S).
    assert (A : actions l = actions l') by now rewrite actions_unsampled, U, <- actions_unsampled.
    destruct S as [->|[_ X]]; [eauto|]. exfalso. exact (fb_same _ _ (eq_sym A) NF X).
  - destruct (proj2 (limit_running FL ch absq OK (limited past H) da c b k W HH) _ _ _ _ _ _ E)
      as (n & d & D & [->|[_ X]]); [|contradiction]. eauto.
Qed.

Lemma step_any past c b k : wf c -> exists c1 r1 b1 k1 l1, wf c1 /\
  runl H (execute_next FL false c) b k = Some ((c1, r1), b1, k1, l1) /\
  runl (limited past H) (execute_next FL false c) b k = Some ((c1, r1), b1, k1, l1).
Proof.
  intros W. destruct (wpl_run H _ _ b k (execute_next_qt (TS:=TS) (WB:=WB) (RB:=RB) FL false c W)) as ([c1 r1] & b1 & k1 & l1 & E & F & W1).
  exists c1, r1, b1, k1, l1. split; [exact W1|]. split; [exact E|]. exact (runl_limited past H _ _ _ _ _ _ _ _ _ E F).
Qed.
Lemma drive_more past m j : forall c b k y b' k' l,
  runl (limited past H) (drive FL m c) b k = Some (Some y, b', k', l) ->
  runl (limited past H) (drive FL (m + j) c) b k = Some (Some y, b', k', l).
Proof.
  induction m as [|m IH]; intros c b k y b' k' l E; [discriminate E|].
  cbn [drive Nat.add] in *. rewrite past_run in *.
  apply after_some in E. destruct E as (l1 & E & ->).
  destruct (h_is_past_limit (limited past H) k); [rewrite E; reflexivity|].
  destruct (runl (limited past H) (execute_next FL false c) b k) as [[[[[c1 r1] b1] k1] l2]|] eqn:EN.
  2: { rewrite Steps.runl_bind, EN in E. discriminate E. }
  rewrite (runl_after _ _ _ _ _ _ _ _ _ EN) in E. rewrite (runl_after _ _ _ _ _ _ _ _ _ EN). apply after_some in E. destruct E as (l3 & E & ->).
  cbn [fst snd] in *. destruct r1 as [e|]; [now rewrite E|].
  transitivity (after [KPast false] (after l2 (Some (Some y, b', k', l3)))); [|reflexivity].
  do 2 f_equal. exact (IH _ _ _ _ _ _ _ E).
Qed.
Lemma drive_slice p1 p2 : later p1 p2 -> forall m c b k d b1 k1 l1, wf c ->
  runl (limited p1 H) (drive FL m c) b k = Some (Some (d, None), b1, k1, l1) ->
  exists j l1', actions l1' = actions l1 /\ forall n,
  runl (limited p2 H) (drive FL (j + n) c) b k = after l1' (runl (limited p2 H) (drive FL n d) b1 k1).
Proof.
  intros LT. induction m as [|m IH]; intros c b k d b1 k1 l1 W E; [discriminate E|].
  cbn [drive] in E. rewrite past_run in E. apply after_some in E. destruct E as (l2 & E & ->).
  change (h_is_past_limit (limited p1 H) k) with (p1 k) in *.
  destruct (p1 k) eqn:P1.
  { injection E as <- <- <- <-. exists O, []. split; [reflexivity|]. intros n. now rewrite after_nil. }
  assert (P2 : p2 k = false) by (destruct (p2 k) eqn:X; [rewrite (LT k X) in P1; discriminate P1|reflexivity]).
  destruct (step_any p1 c b k W) as (c1 & r1 & b2 & k2 & l3 & W1 & S0 & S1).
  destruct (step_any p2 c b k W) as (c1' & r1' & b2' & k2' & l3' & _ & S0' & S2).
  rewrite S0 in S0'. injection S0' as <- <- <- <- <-.
  rewrite (runl_after _ _ _ _ _ _ _ _ _ S1) in E. apply after_some in E. destruct E as (l4 & E & ->).
  cbn [fst snd] in E. destruct r1 as [e|]; [discriminate E|].
  destruct (IH _ _ _ _ _ _ _ W1 E) as (j & l1' & A & G).
  exists (Datatypes.S j), (KPast false :: l3 ++ l1'). split.
  { cbn [app]. change (actions (l3 ++ l1') = actions (l3 ++ l4)). now rewrite !actions_app, A. }
  intros n. cbn [Nat.add drive]. rewrite past_run. change (h_is_past_limit (limited p2 H) k) with (p2 k). rewrite P2.
  rewrite (runl_after _ _ _ _ _ _ _ _ _ S2). cbn [fst snd]. rewrite G, !after_app. reflexivity.
Qed.
(** An earlier break. *)
Lemma drive_break p1 p2 : later p1 p2 -> forall m c b k d e b1 k1 l1, wf c ->
  runl (limited p1 H) (drive FL m c) b k = Some (Some (d, Some e), b1, k1, l1) ->
  runl (limited p2 H) (drive FL m c) b k = Some (Some (d, Some e), b1, k1, l1).
Proof.
  intros LT. induction m as [|m IH]; intros c b k d e b1 k1 l1 W E; [discriminate E|].
  cbn [drive] in *. rewrite past_run in *. apply after_some in E. destruct E as (l2 & E & ->).
  change (h_is_past_limit (limited p1 H) k) with (p1 k) in *.
  change (h_is_past_limit (limited p2 H) k) with (p2 k) in *.
  destruct (p1 k) eqn:P1; [discriminate E|].
  assert (P2 : p2 k = false) by (destruct (p2 k) eqn:X; [rewrite (LT k X) in P1; discriminate P1|reflexivity]).
  rewrite P2.
  destruct (step_any p1 c b k W) as (c1 & r1 & b2 & k2 & l3 & W1 & S0 & S1).
  destruct (step_any p2 c b k W) as (c1' & r1' & b2' & k2' & l3' & _ & S0' & S2).
  rewrite S0 in S0'. injection S0' as <- <- <- <- <-.
  rewrite (runl_after _ _ _ _ _ _ _ _ _ S1) in E. apply after_some in E. destruct E as (l4 & E & ->).
  rewrite (runl_after _ _ _ _ _ _ _ _ _ S2). cbn [fst snd] in *. destruct r1 as [x|].
  - cbn [runl] in *. injection E as <- <- <- <- <-. reflexivity.
  - transitivity (after [KPast false] (after l3 (Some (Some (d, Some e), b1, k1, l4)))); [|reflexivity].
    do 2 f_equal. exact (IH _ _ _ _ _ _ _ _ W1 E).
Qed.

Context (PU : irq_pure H).
Notation ewl past da n c := (runl (limited past H) (execute_with_limit FL da n c)).
Lemma slice_then p1 p2 : later p1 p2 -> forall da n1 c b k c1 b1 k1 l1, inv39 c ->
  ewl p1 da n1 c b k = Some (Some (c1, None), b1, k1, l1) -> ~ Exists fb_ack l1 ->
  forall n2 c2 r b2 k2 l2, ewl p2 da n2 c1 b1 k1 = Some (Some (c2, r), b2, k2, l2) -> ~ Exists fb_ack l2 ->
  exists n l, ewl p2 da n c b k = Some (Some (c2, r), b2, k2, l) /\ actions l = actions l1 ++ actions l2.
Proof.
  intros LT da n1 c b k c1 b1 k1 l1 I E1 F1 n2 c2 r b2 k2 l2 E2 F2.
  destruct (to_drive _ _ _ _ _ _ _ _ _ _ _ PU I F1 E1) as (m1 & l1' & D1 & A1).
  assert (I1 : inv39 c1) by exact (drive_inv39 FL ch absq OK _ _ _ _ _ _ _ _ _ _ I D1).
  destruct (to_drive _ _ _ _ _ _ _ _ _ _ _ PU I1 F2 E2) as (m2 & l2' & D2 & A2).
  destruct (drive_slice p1 p2 LT _ _ _ _ _ _ _ _ (proj1 I) D1) as (j & l3 & A3 & G).
  specialize (G m2). rewrite D2 in G. cbn [after] in G.
  assert (A : actions (l3 ++ l2') = actions (l1 ++ l2)) by now rewrite !actions_app, A3, A1, A2.
  assert (F : ~ Exists fb_ack (l3 ++ l2')).
  { apply (fb_same _ _ (eq_sym A)). rewrite Exists_app. tauto. }
  destruct (of_drive _ da _ _ _ _ _ _ _ _ _ PU I F G) as (n & l & E & A').
  exists n, l. split; [exact E|]. now rewrite A', A, actions_app.
Qed.
Lemma slice_back p1 p2 : later p1 p2 -> forall da n1 c b k c1 b1 k1 l1, inv39 c ->
  ewl p1 da n1 c b k = Some (Some (c1, None), b1, k1, l1) -> ~ Exists fb_ack l1 ->
  forall n c2 r b2 k2 l, ewl p2 da n c b k = Some (Some (c2, r), b2, k2, l) -> ~ Exists fb_ack l ->
  exists n2 l2, ewl p2 da n2 c1 b1 k1 = Some (Some (c2, r), b2, k2, l2) /\ actions l = actions l1 ++ actions l2.
Proof.
  intros LT da n1 c b k c1 b1 k1 l1 I E1 F1 n c2 r b2 k2 l E F.
  destruct (to_drive _ _ _ _ _ _ _ _ _ _ _ PU I F1 E1) as (m1 & l1' & D1 & A1).
  assert (I1 : inv39 c1) by exact (drive_inv39 FL ch absq OK _ _ _ _ _ _ _ _ _ _ I D1).
  destruct (to_drive _ _ _ _ _ _ _ _ _ _ _ PU I F E) as (m & l' & D & A).
  destruct (drive_slice p1 p2 LT _ _ _ _ _ _ _ _ (proj1 I) D1) as (j & l3 & A3 & G).
  specialize (G m). apply (drive_more p2 m j) in D. rewrite Nat.add_comm, G in D.
  apply after_some in D. destruct D as (l2' & D2 & ->).
  assert (F2 : ~ Exists fb_ack l2').
  { intros X. apply (fb_same _ _ A F). rewrite Exists_app. now right. }
  destruct (of_drive _ da _ _ _ _ _ _ _ _ _ PU I1 F2 D2) as (n2 & l2 & E2 & A2).
  exists n2, l2. split; [exact E2|]. now rewrite A, actions_app, A3, <- A1, A2.
Qed.
Lemma slice_break p1 p2 : later p1 p2 -> forall da n1 c b k c1 e b1 k1 l1, inv39 c ->
  ewl p1 da n1 c b k = Some (Some (c1, Some e), b1, k1, l1) -> ~ Exists fb_ack l1 ->
  exists n l, ewl p2 da n c b k = Some (Some (c1, Some e), b1, k1, l) /\ actions l = actions l1.
Proof.
  intros LT da n1 c b k c1 e b1 k1 l1 I E1 F1.
  destruct (to_drive _ _ _ _ _ _ _ _ _ _ _ PU I F1 E1) as (m1 & l1' & D1 & A1).
  apply (drive_break p1 p2 LT _ _ _ _ _ _ _ _ _ (proj1 I)) in D1.
  destruct (of_drive _ da _ _ _ _ _ _ _ _ _ PU I (fb_same _ _ A1 F1) D1) as (n & l & E & A).
  exists n, l. split; [exact E|]. congruence.
Qed.
Lemma ewl_inv39 p da n c b k c' r b' k' l : inv39 c -> ewl p da n c b k = Some (Some (c', r), b', k', l) ->
  ~ Exists fb_ack l -> inv39 c'.
Proof.
  intros I E F. destruct (to_drive _ _ _ _ _ _ _ _ _ _ _ PU I F E) as (m & l' & D & _).
  exact (drive_inv39 FL ch absq OK _ _ _ _ _ _ _ _ _ _ I D).
Qed.
Lemma frames_one p da : forall ps c b k c' r b' k' l, inv39 c -> Forall (fun q => later q p) ps ->
  frames FL H da (ps ++ [p]) c b k c' r b' k' l -> ~ Exists fb_ack l ->
  exists n l', ewl p da n c b k = Some (Some (c', r), b', k', l') /\ actions l' = actions l.
Proof.
  induction ps as [|q ps IH]; intros c b k c' r b' k' l I LT FR F; cbn [app] in FR.
  - inversion FR as [? ? ? ? ? ? ? ? ? ? E|? ? ? ? ? ? ? ? ? ? ? E|? ? ? ? ? ? ? ? ? ? ? ? ? ? ? E X]; subst; eauto.
    inversion X.
  - apply Forall_cons_iff in LT. destruct LT as [LT LS].
    inversion FR as [? ? ? ? ? ? ? ? ? ? E|? ? ? ? ? ? ? ? ? ? ? E|]; subst.
    + destruct ps; discriminate.
    + exact (slice_break q p LT _ _ _ _ _ _ _ _ _ _ I E F).
    + rewrite Exists_app in F. match goal with X : frames _ _ _ _ _ _ _ _ _ _ _ _, E : runl _ _ _ _ = _ |- _ => rename X into XX; rename E into EE end.
      match type of F with ~ (Exists _ ?a \/ Exists _ ?b) => rename a into l1; rename b into l2 end.
      assert (F1 : ~ Exists fb_ack l1) by tauto. assert (F2 : ~ Exists fb_ack l2) by tauto.
      destruct (IH _ _ _ _ _ _ _ _ (ewl_inv39 _ _ _ _ _ _ _ _ _ _ _ I EE F1) LS XX F2) as (n2 & l2' & E2 & A2).
      destruct (slice_then q p LT _ _ _ _ _ _ _ _ _ I EE F1 _ _ _ _ _ _ E2 (fb_same _ _ (eq_sym A2) F2)) as (n' & l & E' & A).
      exists n', l. split; [exact E'|]. now rewrite A, A2, actions_app.
Qed.
End S.

Section Q.
Context {Q TS WB RB : Type}.
Variable FL : Flavour Q.
Implicit Types c : cpu Q.
Notation any := (fun _ : Z => True).
Lemma quiet_logs dbg c : wf c ->
  (forall code, byte code -> logs (TS:=TS) (WB:=WB) (RB:=RB) (execute_instruction FL dbg code c)
     (fun _ l => Forall (quiet dbg (fun a => In code rel_cond /\ a = pc c)) l)) /\
  logs (TS:=TS) (WB:=WB) (RB:=RB) (execute_next FL dbg c) (fun _ l => Forall (quiet dbg any) l) /\
  logs (TS:=TS) (WB:=WB) (RB:=RB) (irq FL dbg c) (fun _ l => Forall (quiet dbg any) l) /\
  logs (TS:=TS) (WB:=WB) (RB:=RB) (nmi FL c) (fun _ l => Forall (quiet false any) l).
Proof.
  intros W. repeat split; intros; apply wpl_logs.
  - now apply execute_instruction_peek.
  - refine (wpl_mono _ _ _ _ (execute_next_qt FL dbg c W)). now intros ? ? [? _].
  - refine (wpl_mono _ _ _ _ (irq_qt FL dbg c W)). now intros ? ? [? _].
  - refine (wpl_mono _ _ _ _ (nmi_qt FL false c W)). now intros ? ? [? _].
Qed.
End Q.
