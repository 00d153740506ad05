(** Between two looks at the limit: C52. *)
From Coq Require Import ZArith Bool List Lia.
From Verif Require Import Base Flags Ops Parse Cpu Flavours Prog Trace Internal Instr Exec Range Clock ClockProofs Safe SafeEntry SafeRun
  SpecAlu SpecState SpecIsa SpecCycles SpecStep SpecLog SpecReach SpecLoop SpecSlice SpecPace IsaLink IsaArith IsaTac IsaCycles IsaFacts IsaExec
  IsaRun Steps Lock IsaControl Accessors AluProofs Decode Control Reach Stamp StampRun Quiet QuietRun Drive Loop.
Import ListNotations.
Open Scope Z_scope.

Lemma total_app l l' : total (l ++ l') = total l + total l'.
Proof. unfold total. induction l; cbn [app fold_right]; lia. Qed.
Lemma busy_app {TS WB RB} (l l' : list (ev TS WB RB)) : busy (l ++ l') = busy l + busy l'.
Proof. unfold busy. now rewrite map_app, total_app. Qed.
Lemma held_app {TS WB RB} (l l' : list (ev TS WB RB)) : held_up (l ++ l') = held_up l + held_up l'.
Proof. unfold held_up. now rewrite map_app, total_app. Qed.
Lemma busy_cons {TS WB RB} (e : ev TS WB RB) l : busy (e :: l) = spent e + busy l.
Proof. reflexivity. Qed.
Lemma held_cons {TS WB RB} (e : ev TS WB RB) l : held_up (e :: l) = held e + held_up l.
Proof. reflexivity. Qed.

(** ** Times of the tables *)
Definition okt (lo hi : Z) (t : Z) : bool := (lo <=? t) && (t <=? hi).
Lemma forall_at l lo hi : forallb (okt lo hi) l = true -> forall i, 0 <= i < Z.of_nat (length l) -> lo <= at_ l i <= hi.
Proof.
  intros H i Hi. rewrite forallb_forall in H. specialize (H (at_ l i)). unfold okt in H. rewrite andb_true_iff, !Z.leb_le in H.
  apply H. apply nth_In. lia.
Qed.
Definition main_ok (c : Z) : bool :=
  okt 0 (if existsb (Z.eqb c) [0x10; 0x20; 0x28; 0x30; 0x38] then 8
         else if (c / 64 =? 3) && ((c mod 8 =? 0) || (c mod 8 =? 4)) then 10 else 19) (at_ t_main c) &&
  okt 0 (if existsb (Z.eqb c) [0x10; 0x20; 0x28; 0x30; 0x38] then 8
         else if (c / 64 =? 3) && ((c mod 8 =? 0) || (c mod 8 =? 4)) then 10 else 19) (at_ t_index c).
Lemma all_main : forallb main_ok (map Z.of_nat (seq 0 256)) = true.
Proof. vm_compute. reflexivity. Qed.
Lemma taken_bound c f b : 0 <= c < 256 -> at_ t_main c + t_taken c f b <= 19 /\ at_ t_index c + t_taken c f b <= 19 /\
  0 <= at_ t_main c + t_taken c f b /\ 0 <= at_ t_index c + t_taken c f b.
Proof.
  intros Hc. pose proof all_main as H. rewrite forallb_forall in H. specialize (H c).
  assert (HI : In c (map Z.of_nat (seq 0 256))).
  { apply in_map_iff. exists (Z.to_nat c). split; [lia|]. apply in_seq. lia. }
  specialize (H HI). unfold main_ok, okt in H. rewrite !andb_true_iff, !Z.leb_le in H.
  unfold t_taken. cbv zeta.
  destruct (c =? 0x10) eqn:E1.
  { apply Z.eqb_eq in E1. subst c. cbn in H |- *. destruct (b =? 1); lia. }
  cbn [existsb] in H |- *. rewrite E1 in H. cbn [orb] in H.
  destruct ((c =? 0x20) || ((c =? 0x28) || ((c =? 0x30) || ((c =? 0x38) || false)))).
  { destruct (cond _ _); lia. }
  destruct (c / 64 =? 3); cbn [andb] in *; [|lia].
  destruct (c mod 8 =? 0); cbn [orb] in *; [destruct (cond _ _); lia|].
  destruct (c mod 8 =? 4); [destruct (cond _ _); lia|lia].
Qed.
Lemma cb_bound c : 4 <= t_cb c <= 11.
Proof. unfold t_cb. destruct (_ =? 6); [destruct (_ =? 1)|]; lia. Qed.
Lemma icb_bound c : 9 <= t_icb c <= 12.
Proof. unfold t_icb. destruct (_ =? 1); lia. Qed.
Lemma ed_bound c : 0 <= c < 256 -> 0 <= t_ed c <= 16 /\ forall a b v, 0 <= t_ed c + t_repeat c a b v <= 17.
Proof.
  intros Hc. assert (H : 4 <= t_ed c <= 16 /\ (existsb (Z.eqb c) [0xB0; 0xB8; 0xB1; 0xB9; 0xB2; 0xB3; 0xBA; 0xBB] = true -> t_ed c <= 12)).
  { unfold t_ed. destruct (c / 64 =? 1) eqn:E.
    - apply Z.eqb_eq in E. assert (64 <= c < 128) by (pose proof (Z.div_mod c 64 ltac:(lia)); pose proof (Z.mod_pos_bound c 64 ltac:(lia)); lia).
      pose proof (forall_at t_ed4 4 16 eq_refl (c - 0x40) ltac:(cbn; lia)) as X. split; [exact X|].
      cbn [existsb]. rewrite !orb_true_iff, !Z.eqb_eq. lia.
    - destruct (existsb _ _); lia. }
  destruct H as [H1 H2]. split; [lia|]. intros a b v. unfold t_repeat. cbv zeta. cbn [existsb] in *.
  rewrite !orb_true_iff, !Z.eqb_eq in H2.
  destruct (Z.eq_dec c 0xB0); [subst; destruct (negb _); cbn in *; lia|].
  destruct (Z.eq_dec c 0xB8); [subst; destruct (negb _); cbn in *; lia|].
  destruct (Z.eq_dec c 0xB1); [subst; cbn [Z.eqb orb]; cbn in *; destruct (_ && _); lia|].
  destruct (Z.eq_dec c 0xB9); [subst; cbn [Z.eqb orb]; cbn in *; destruct (_ && _); lia|].
  destruct (Z.eq_dec c 0xB2); [subst; cbn in *; destruct (negb _); lia|].
  destruct (Z.eq_dec c 0xB3); [subst; cbn in *; destruct (negb _); lia|].
  destruct (Z.eq_dec c 0xBA); [subst; cbn in *; destruct (negb _); lia|].
  destruct (Z.eq_dec c 0xBB); [subst; cbn in *; destruct (negb _); lia|].
  repeat match goal with N : c <> ?x |- _ => rewrite (proj2 (Z.eqb_neq c x) N); clear N end. cbn [orb]. cbv iota. lia.
Qed.
Lemma documented_bound {T WB RB} px c (bl : list (bev WB RB)) (a : arch T) : 0 <= c < 256 -> Forall data_byte bl -> 0 <= documented px c bl a <= 21.
Proof.
  intros Hc D. pose proof (taken_bound c (aF a) (aBC a / 256) Hc) as TB. unfold documented.
  assert (ED : 0 <= match bl with VOp _ _ c2 :: bl =>
          4 + t_ed c2 + t_repeat c2 (aA a) (aBC a) (match bl with VRd _ v :: _ => v | _ => 0 end) | _ => 0 end <= 21).
  { destruct bl as [|[] bl]; try lia. inversion D as [|? ? D1 D2]; subst. 
    pose proof (proj2 (ed_bound v D1) (aA a) (aBC a) (match bl with VRd _ v :: _ => v | _ => 0 end)). lia. }
  destruct px.
  - destruct (c =? 0xCB); [|destruct (c =? 0xED); [exact ED|lia]].
    destruct bl as [|? [|[] ?]]; try lia. pose proof (icb_bound v). lia.
  - destruct (c =? 0xCB); [|destruct (c =? 0xED); [exact ED|lia]].
    destruct bl as [|[] ?]; try lia. pose proof (cb_bound v). lia.
Qed.

(** ** Wait states in a run of a tree *)
Definition tw (e : tev) : Z := match e with TWait _ n => n | _ => 0 end.
Definition twaits (cl : list tev) : Z := total (map tw cl).
Lemma waits_cons {WB RB} (e : bev WB RB) l : waits (e :: l) = wait_of e + waits l.
Proof. reflexivity. Qed.
Lemma twaits_cons e l : twaits (e :: l) = tw e + twaits l.
Proof. reflexivity. Qed.
Lemma accepts_waits {WB RB X} (t : cyc WB RB X) : forall bl cl x, accepts t bl cl x -> twaits cl = waits bl.
Proof.
  assert (W : forall (P : list tev -> Prop) p w cl n bl, waited (P:=P) p w cl -> (forall cl, P cl -> twaits cl = waits (RB:=RB) (WB:=WB) bl) ->
    n = match w with Some n => n | None => 0 end -> twaits cl = n + waits bl).
  { intros P p [n|] cl m bl H HP ->; unfold waited in H; [|rewrite (HP _ H); lia].
    destruct cl as [|[] cl]; try contradiction H. destruct H as (_ & -> & H). rewrite twaits_cons. cbn [tw]. rewrite (HP _ H). lia. }
  induction t as [y|a i k IH|a k IH|a k IH|a k IH|a v k IH|a n k IH|p k IH|p v k IH|k IH|a k IH|a k IH]; intros bl cl x0 HA; cbn [accepts] in HA.
  - destruct HA as (-> & -> & _). reflexivity.
  - destruct bl as [|[] bl]; try contradiction HA. destruct cl as [|[] cl]; try contradiction HA. destruct HA as (_ & _ & _ & HA). exact (IH _ _ _ _ HA).
  - destruct cl as [|[] cl]; try contradiction HA. destruct HA as (_ & HA). exact (IH _ _ _ HA).
  - destruct bl as [|[] bl]; try contradiction HA. destruct cl as [|[] cl]; try contradiction HA. destruct HA as (_ & _ & HA). exact (IH _ _ _ _ HA).
  - destruct cl as [|[] cl]; try contradiction HA. destruct HA as (_ & HA). exact (IH _ _ _ HA).
  - destruct bl as [|[] bl]; try contradiction HA. destruct cl as [|[] cl]; try contradiction HA. destruct HA as (_ & _ & _ & HA). exact (IH _ _ _ HA).
  - destruct cl as [|[] cl]; try contradiction HA. destruct HA as (_ & _ & HA). exact (IH _ _ _ HA).
  - destruct bl as [|[] bl]; try contradiction HA. destruct cl as [|[] cl]; try contradiction HA. destruct HA as (_ & _ & HA).
    exact (W _ _ _ _ _ _ HA (fun cl H => IH _ _ _ _ H) eq_refl).
  - destruct bl as [|[] bl]; try contradiction HA. destruct cl as [|[] cl]; try contradiction HA. destruct HA as (_ & _ & _ & HA).
    exact (W _ _ _ _ _ _ HA (fun cl H => IH _ _ _ _ H) eq_refl).
  - destruct bl as [|[] bl]; try contradiction HA. exact (IH _ _ _ _ HA).
  - destruct bl as [|[] bl]; try contradiction HA. destruct HA as (_ & HA). exact (IH _ _ _ _ HA).
  - destruct bl as [|[] bl]; try contradiction HA. destruct cl as [|[] cl]; try contradiction HA. destruct HA as (_ & _ & HA).
    exact (W _ _ _ _ _ _ HA (fun cl H => IH _ _ _ _ H) eq_refl).
Qed.
Lemma tsum_split {TS WB RB} (l : list (ev TS WB RB)) : tsum (clocks l) = busy l + twaits (clocks l).
Proof.
  induction l as [|e l IH]; [reflexivity|]. change (clocks (e :: l)) with (clk1 e ++ clocks l). rewrite busy_cons.
  destruct e; cbn [clk1 app spent]; rewrite ?tsum_cons, ?twaits_cons; cbn [tstates tw]; lia.
Qed.
Lemma busy_tree {TS WB RB X} (t : cyc WB RB X) (l : list (ev TS WB RB)) x : accepts t (buses l) (clocks l) x ->
  tsum (clocks l) = busy l + waits (buses l).
Proof. intros H. rewrite tsum_split, (accepts_waits _ _ _ _ H). reflexivity. Qed.

Section P.
Context {Q T TS WB RB : Type}.
Variables (FL : Flavour Q) (ch : chip T) (absq : Q -> T).
Hypothesis OK : chip_ok FL ch absq.
Implicit Types c d : cpu Q.
Implicit Types s : @st Q.
Notation prog := (prog TS WB RB).
Notation log := (list (ev TS WB RB)).
Notation host := (host TS WB RB).

Lemma quiet_no_look dbg P (l : log) : Forall (quiet dbg P) l -> Forall no_look l.
Proof. apply Forall_impl. now intros []. Qed.
(** ** Single steps *)
Lemma int_bound (a : arch T) (bl : list (bev WB RB)) : Forall data_byte bl -> int_time a bl <= 23.
Proof.
  intros D. unfold int_time. destruct (aIM a); try lia. destruct bl as [|[] bl]; try lia. inversion D as [|? ? D1 D2]; subst.
  pose proof (documented_bound (aPX a) v bl a D1 D2). lia.
Qed.
Lemma step_bound (a : arch T) (bl : list (bev WB RB)) : Forall data_byte bl ->
  step_time a bl <= match bl with VIrq true :: _ => match aIM a with Mode0 => 23 | Mode1 => 13 | Mode2 => 19 end | _ => 21 end.
Proof.
  intros D. unfold step_time. cbv zeta.
  assert (G : forall bl : list (bev WB RB), Forall data_byte bl ->
    (if aHALT a then 4 else match bl with VOp _ _ c :: bl => documented (aPX a) c bl a | _ => 0 end) <= 21).
  { clear. intros bl D. destruct (aHALT a); [lia|]. destruct bl as [|[] bl]; try lia. inversion D as [|? ? D1 D2]; subst.
    pose proof (documented_bound (aPX a) v bl a D1 D2). lia. }
  destruct bl as [|[] bl]; try exact (G _ D). inversion D as [|? ? D1 D2]; subst.
  destruct b; [|exact (G _ D2)]. unfold int_time. destruct (aIM a); try lia. destruct bl as [|[] bl]; try lia.
  inversion D2 as [|? ? D3 D4]; subst. pose proof (documented_bound (aPX a) v bl a D3 D4). lia.
Qed.
Lemma spent_nonneg (l : log) : forall e, stamped e l -> Forall (fun e => 0 <= spent e) l.
Proof.
  induction l as [|x l IH]; intros e H; [constructor|]. cbn [stamped] in H. destruct H as [H1 H2]. constructor; [|exact (IH _ H2)].
  destruct x; cbn [spent]; try lia. cbn [covered] in H1. apply Z.ltb_lt in H1. lia.
Qed.
Lemma busy_nonneg (l : log) : Forall (fun e => 0 <= spent e) l -> 0 <= busy l.
Proof. induction 1; [reflexivity|]. rewrite busy_cons. lia. Qed.
Lemma first_m1 {A} (p : prog A) BS CK (Hs : host BS CK) a f b k x b' k' l : p = AddM1 a f ->
  runl Hs p b k = Some (x, b', k', l) -> (forall e, stamped e l) -> 4 <= busy l.
Proof.
  intros -> E ST. cbn [runl] in E. destruct (h_add_m1 Hs k a) as [k1 t]. apply cons_log_inv in E. destruct E as (l' & _ & ->).
  specialize (ST None). pose proof (spent_nonneg _ _ ST) as H. apply Forall_inv_tail in H. apply busy_nonneg in H. rewrite busy_cons. cbn [spent]. lia.
Qed.
Context {BS CK : Type} (Hs : host BS CK).
Lemma loop_lap s b k x b' k' l : wfst s -> runl Hs (loop_instr FL s) b k = Some (x, b', k', l) -> lap l.
Proof.
  intros Ws E. split.
  - assert (X : wpl (loop_instr (TS:=TS) (WB:=WB) (RB:=RB) FL s) (fun _ l => Forall no_look l)).
    { destruct Ws as (H1 & H2 & H3). unfold loop_instr. apply wpl_bind. unfold fetch_next_opcode. cbn. intros t v Hv.
      refine (wpl_mono _ _ _ _ (exec_code_quiet FL false v (mkSt _ _ _ _) Hv _)).
      - intros a l0 H. constructor; [exact I|]. constructor; [exact I|]. apply (quiet_no_look _ _ _ H).
      - split; [|split]; cbn [sc sfl spc]; [change (wf (inc_r (sc s)))| |]; auto with rng. }
    exact (wpl_at _ _ _ _ _ _ _ _ _ _ _ X E).
  - split.
    + destruct (loop_starts (TS:=TS) (WB:=WB) (RB:=RB) FL s) as [f EF].
      refine (first_m1 _ _ _ Hs (spc s) f b k x b' k' l EF E _). intros e.
      exact (wpl_at _ _ _ _ _ _ _ _ _ _ _ (loop_instr_stm FL s Ws) E e).
    + destruct (wpl_at _ _ _ _ _ _ _ _ _ _ _ (loop_instr_isa FL ch absq OK s Ws) E) as (_ & HD & o & _ & HA).
      pose proof (busy_tree _ _ _ HA) as HB. unfold fetch in HA. cbv zeta in HA. apply acc_m1 in HA.
      destruct HA as (v & bl & cl & EB & EC & HA). rewrite EB in *. rewrite EC in *. inversion HD as [|? ? D1 D2]; subst.
      apply exec_documented in HA; [|exact D1|destruct Ws as (W & _); exact (wf_bc _ W)|exact D2].
      rewrite tsum_cons, waits_cons in HB. cbn [tstates wait_of] in HB.
      match type of HA with _ = documented ?p ?c ?b ?a + _ => pose proof (documented_bound p c b a D1 D2) end. lia.
Qed.
Lemma irq_lap c b k x b' k' l : wf c -> runl Hs (irq_no_check FL false c) b k = Some (x, b', k', l) -> lap l.
Proof.
  intros Wc E. pose proof (wpl_at _ _ _ _ _ _ _ _ _ _ _ (irq_no_check_qt FL false c Wc) E) as [HQ _].
  split; [exact (quiet_no_look _ _ _ HQ)|].
  destruct (wpl_at _ _ _ _ _ _ _ _ _ _ _ (wpl_bytes _ _ (irq_no_check_isa FL ch absq OK false c Wc)) E) as [(W & o & _ & HA) HD].
  split.
  - destruct (wpl_at _ _ _ _ _ _ _ _ _ _ _ (irq_no_check_stm FL false c Wc) E) as [ST _].
    destruct (irq_total FL ch absq OK c Hs b k Wc) as (y & b1 & k1 & l1 & E1 & _ & v & t & w & p & l' & EL & _).
    rewrite E in E1. injection E1 as <- <- <- <-. subst l. pose proof (spent_nonneg _ _ (ST None)) as H.
    apply Forall_inv_tail in H. apply busy_nonneg in H. rewrite busy_cons. cbn [spent]. lia.
  - pose proof (busy_tree _ _ _ HA) as HB. rewrite (int_documented ch (abs absq c) _ _ _ (wf_bc _ Wc) HD HA) in HB.
    pose proof (int_bound (abs absq c) _ HD). lia.
Qed.

(** ** [execute_next] *)
Lemma in_clocks (l : log) e : In e (clocks l) -> exists v, In v l /\ clk1 v = [e].
Proof.
  unfold clocks. rewrite in_flat_map. intros (v & H1 & H2). exists v. split; [exact H1|]. destruct v; cbn in H2 |- *; try contradiction H2;
    destruct H2 as [<-|[]]; reflexivity.
Qed.
Lemma busy_in (l : log) v : Forall (fun e => 0 <= spent e) l -> In v l -> spent v <= busy l.
Proof.
  induction 1 as [|e l H HF IH]; intros HI; [contradiction HI|]. rewrite busy_cons. pose proof (busy_nonneg _ HF). destruct HI as [->|HI]; [lia|].
  specialize (IH HI). lia.
Qed.
Lemma next_first (a : arch T) (bl : list (bev WB RB)) cl x : accepts (next ch a) bl cl x -> exists e cl', cl = e :: cl' /\ match e with TM1 _ | TAck _ => True | _ => False end.
Proof.
  unfold next. intros H.
  assert (G : forall (bl : list (bev WB RB)) x, accepts (if aHALT a then SIdleM1 (aPC a) (done (inc_R a)) else fetch a (exec ch)) bl cl x -> exists e cl', cl = e :: cl' /\ match e with TM1 _ | TAck _ => True | _ => False end).
  { clear. intros bl x H. destruct (aHALT a).
    - cbn [accepts] in H. destruct cl as [|[] cl]; try contradiction H. eexists _, _. split; [reflexivity|exact I].
    - unfold fetch in H. cbv zeta in H. apply acc_m1 in H. destruct H as (v & bl' & cl' & _ & -> & _). eexists _, _. split; [reflexivity|exact I]. }
  destruct (int_enabled a); [|exact (G _ _ H)]. apply acc_irq in H. destruct H as (q & bl' & _ & H). destruct q; [|exact (G _ _ H)].
  unfold accept_int in H. cbv zeta in H. apply acc_ack in H.
  destruct H as (v & w & bl2 & cl2 & _ & -> & _). eexists _, _. split; [reflexivity|exact I].
Qed.
Lemma next_lap dbg c b k x b' k' l : wf c -> runl Hs (execute_next FL dbg c) b k = Some (x, b', k', l) ->
  Forall no_look l /\ 4 <= busy l <= match buses l with VIrq true :: _ => match im c with Mode0 => 23 | Mode1 => 13 | Mode2 => 19 end | _ => 21 end.
Proof.
  intros Wc E. pose proof (wpl_at _ _ _ _ _ _ _ _ _ _ _ (execute_next_qt FL dbg c Wc) E) as [HQ _].
  split; [exact (quiet_no_look _ _ _ HQ)|].
  destruct (runs_at _ _ _ _ _ _ _ _ _ _ _ (execute_next_follows FL ch absq OK dbg c Wc) E) as (HD & _ & o & _ & HA).
  split.
  - destruct (wpl_at _ _ _ _ _ _ _ _ _ _ _ (execute_next_stm FL dbg c Wc) E) as [ST _]. pose proof (spent_nonneg _ None (ST None)) as H.
    destruct (next_first _ _ _ _ HA) as (e & cl & EC & HE). destruct (in_clocks l e) as (v & V1 & V2); [rewrite EC; now left|].
    pose proof (busy_in _ _ H V1). destruct v; cbn in V2; try discriminate V2; injection V2 as <-; cbn in HE; try contradiction HE; cbn [spent] in *; lia.
  - pose proof (busy_tree _ _ _ HA) as HB. rewrite (next_documented ch (abs absq c) _ _ _ (wf_bc _ Wc) HD HA) in HB.
    pose proof (step_bound (abs absq c) _ HD) as X. change (aIM (abs absq c)) with (im c) in X. lia.
Qed.

(** ** The loop *)
Definition fin (y : cpu Q * result WB RB) : bool := match snd y with None => true | Some _ => false end.
(** After a look that answered no. *)
Definition going (r : bool) (l : log) : Prop := (lap l /\ r = false) \/ exists a l', l = a ++ l' /\ lap a /\ paced r l'.
Lemma going_paced r l : going r l -> paced r (KPast false :: l).
Proof. intros [[L ->]|(a & l' & -> & L & P)]; [now constructor|now constructor]. Qed.
Lemma going_app r l l' : lap l -> paced r l' -> going r (l ++ l').
Proof. right. eauto. Qed.
Lemma going_pre r l l0 : Forall no_look l0 -> busy l0 = 0 -> going r l -> going r (l0 ++ l).
Proof.
  intros N B G. assert (X : forall a, lap a -> lap (l0 ++ a)).
  { intros a [L1 L2]. split; [now apply Forall_app|]. rewrite busy_app. lia. }
  destruct G as [[L ->]|(a & l' & -> & L & P)]; [left; auto|]. right. exists (l0 ++ a), l'. rewrite app_assoc. auto.
Qed.
Lemma past_paced c f b k y b' k' l :
  (forall b y b' k' l, runl Hs f b k = Some (Some y, b', k', l) -> going (fin y) l) ->
  runl Hs (IsPastLimit (fun past => if past then Ret (Some (c, None)) else f)) b k = Some (Some y, b', k', l) -> paced (fin y) l.
Proof.
  intros H E. rewrite past_run in E. apply after_some in E. destruct E as (l2 & E & ->).
  destruct (h_is_past_limit Hs k) eqn:EP.
  - injection E as <- <- <- <-. constructor.
  - apply going_paced. exact (H _ _ _ _ _ E).
Qed.
Lemma sample_quiet b k : Forall no_look (snd (sample Hs b k)) /\ busy (snd (sample Hs b k)) = 0.
Proof. unfold sample. destruct (h_is_irq Hs b (h_as_ts Hs k)). cbn [snd]. split; [repeat constructor|reflexivity]. Qed.
Lemma test_going a f b k y b' k' l :
  (forall q b y b' k' l, runl Hs (f q) b k = Some (Some y, b', k', l) -> going (fin y) l) ->
  runl Hs (test_irq a f) b k = Some (Some y, b', k', l) -> going (fin y) l.
Proof.
  intros H E. rewrite test_run in E. destruct a; [|exact (H _ _ _ _ _ _ E)].
  pose proof (sample_quiet b k) as [S1 S2].
  destruct (sample Hs b k) as [[b1 q] l1]. cbn [snd] in *. apply after_some in E. destruct E as (l2 & E & ->).
  apply going_pre; auto. exact (H _ _ _ _ _ _ E).
Qed.
Lemma irq_going n c b k y b' k' l : wf c ->
  (forall s b k y b' k' l, wfst s -> runl Hs (ewl_loop FL n s) b k = Some (Some y, b', k', l) -> going (fin y) l) ->
  runl Hs (pbind (irq_no_check FL false c) (fun y =>
      match snd y with
      | None => IsPastLimit (fun past => if past then Ret (Some (fst y, None)) else ewl_loop FL n (load_st (fst y)))
      | Some e => Ret (Some (fst y, Some e))
      end)) b k = Some (Some y, b', k', l) -> going (fin y) l.
Proof.
  intros Wc IH E. destruct (irq_total FL ch absq OK c Hs b k Wc) as ([c2 u] & b2 & k2 & l2 & E3 & W3 & _).
  rewrite (runl_after _ _ _ _ _ _ _ _ _ E3) in E. cbn [fst snd] in *. apply after_some in E. destruct E as (l3 & E & ->).
  pose proof (irq_lap _ _ _ _ _ _ _ Wc E3) as L. destruct u as [u|].
  - injection E as <- <- <- <-. rewrite app_nil_r. left. auto.
  - apply going_app; [exact L|]. refine (past_paced _ _ _ _ _ _ _ _ _ E). intros. eapply IH; eauto. now apply wf_load.
Qed.
Lemma loop_going n : forall s b k y b' k' l, wfst s -> runl Hs (ewl_loop FL n s) b k = Some (Some y, b', k', l) -> going (fin y) l.
Proof.
  induction n as [|n IH]; intros s b k y b' k' l Ws E; [discriminate E|].
  destruct (wpl_run Hs _ _ b k (loop_ctl FL ch absq OK s Ws)) as ([s' x] & b1 & k1 & l1 & E1 & _ & _ & v & _ & _ & _ & Ws' & _ & _ & _ & L4 & L5 & L6).
  cbn [ewl_loop] in E. rewrite (runl_after _ _ _ _ _ _ _ _ _ E1) in E. cbn [fst snd] in *.
  apply after_some in E. destruct E as (l3 & E & ->). pose proof (loop_lap _ _ _ _ _ _ _ Ws E1) as L.
  destruct x as [[]|]; try congruence.
  - apply going_app; [exact L|]. refine (past_paced _ _ _ _ _ _ _ _ _ E). intros. eapply IH; [|eassumption].
    destruct Ws' as (A1 & A2 & A3). split; [|split]; cbn [sc sfl spc]; auto with rng.
  - injection E as <- <- <- <-. rewrite app_nil_r. left. auto.
  - injection E as <- <- <- <-. rewrite app_nil_r. left. auto.
  - injection E as <- <- <- <-. rewrite app_nil_r. left. auto.
  - apply going_app; [exact L|]. refine (past_paced _ _ _ _ _ _ _ _ _ E). clear E. intros bb yy b2 k2 l2. apply test_going. clear -IH Ws' OK.
    intros q b y b' k' l E. destruct q; [|exact (IH _ _ _ _ _ _ _ Ws' E)].
    refine (irq_going n _ _ _ _ _ _ _ _ IH E). now apply wf_store.
Qed.
Lemma start_going n c b k y b' k' l : wf c -> runl Hs (ewl_start FL n c) b k = Some (Some y, b', k', l) -> going (fin y) l.
Proof.
  intros Wc. unfold ewl_start. destruct (last_ei c).
  - apply loop_going, wf_load. auto with rng.
  - apply test_going. clear -Wc OK. intros q b y b' k' l E. destruct q.
    + exact (irq_going n c _ _ _ _ _ _ Wc (loop_going n) E).
    + refine (loop_going n _ _ _ _ _ _ _ _ E). now apply wf_load.
Qed.
Lemma ewl_paced da n c b k y b' k' l : wf c -> runl Hs (execute_with_limit FL da n c) b k = Some (Some y, b', k', l) -> paced (fin y) l.
Proof.
  intros Wc. unfold execute_with_limit. destruct (halt c).
  2: { apply past_paced. intros. eapply start_going; eauto. }
  destruct (da && negb (is_int_allowed (prefix c) (last_ei c))); [discriminate|].
  assert (G : forall N m c b k y b' k' l, wf c -> runl Hs (hl FL m N c) b k = Some (Some y, b', k', l) -> paced (fin y) l).
  { clear -OK. intros N. induction m as [|m IH]; intros c b k y b' k' l Wc E; [discriminate E|].
    rewrite hl_run in E. apply after_some in E. destruct E as (l1 & E & ->). destruct (h_is_past_limit Hs k) eqn:EP.
    { injection E as <- <- <- <-. constructor. }
    cbn [app]. apply going_paced.
    assert (MS : forall b k y b' k' l, m1_step Hs c k (fun k => runl Hs (hl FL m N (inc_r c)) b k) = Some (Some y, b', k', l) -> going (fin y) l).
    { clear -IH Wc. intros b k y b' k' l E. unfold m1_step in E. destruct (h_add_m1 Hs k (pc c)) as [k1 t].
      apply after_some in E. destruct E as (l2 & E & ->). apply going_app; [split; [repeat constructor|cbn; lia]|].
      refine (IH _ _ _ _ _ _ _ _ E). auto with rng. }
    destruct (iff1 c); [|exact (MS _ _ _ _ _ _ E)]. pose proof (sample_quiet b k) as [S1 S2].
    destruct (sample Hs b k) as [[b1 q] l2]. cbn [snd] in *. apply after_some in E. destruct E as (l3 & E & ->). apply going_pre; auto.
    destruct q; [exact (start_going _ _ _ _ _ _ _ _ Wc E)|exact (MS _ _ _ _ _ _ E)]. }
  apply G. exact Wc.
Qed.

(** ** Runs that were cut off *)
Inductive unfinished : nat -> log -> Prop :=
| uf_nil : unfinished 0 []
| uf_look l : Forall no_look l -> busy l = 0 -> unfinished 0 (KPast false :: l)
| uf_lap n l l' : lap l -> unfinished n l' -> unfinished (S n) (KPast false :: l ++ l').
Definition ungoing (n : nat) (l : log) : Prop := exists m, (n <= m)%nat /\ unfinished m (KPast false :: l).
Lemma ungoing_pre n l l0 : Forall no_look l0 -> busy l0 = 0 -> ungoing n l -> ungoing n (l0 ++ l).
Proof.
  intros N B (m & Hm & U). inversion U as [|l1 U1 U2|m' l1 l' [L1 L2] U']; subst; eexists; (split; [exact Hm|]).
  - apply uf_look; [now apply Forall_app|]. rewrite busy_app. lia.
  - rewrite app_assoc. apply uf_lap; [|exact U']. split; [now apply Forall_app|]. rewrite busy_app. lia.
Qed.
Lemma past_un {X} n (c : X) (f : prog (option X)) b k b' k' l :
  (forall b b' k' l, runl Hs f b k = Some (None, b', k', l) -> ungoing n l) ->
  runl Hs (IsPastLimit (fun past => if past then Ret (Some c) else f)) b k = Some (None, b', k', l) -> exists m, (n <= m)%nat /\ unfinished m l.
Proof.
  intros H E. rewrite past_run in E. apply after_some in E. destruct E as (l2 & E & ->).
  destruct (h_is_past_limit Hs k) eqn:EP; [discriminate E|]. exact (H _ _ _ _ E).
Qed.
Lemma test_un {X} n a (f : bool -> prog (option X)) b k b' k' l :
  (forall q b b' k' l, runl Hs (f q) b k = Some (None, b', k', l) -> ungoing n l) ->
  runl Hs (test_irq a f) b k = Some (None, b', k', l) -> ungoing n l.
Proof.
  intros H E. rewrite test_run in E. destruct a; [|exact (H _ _ _ _ _ E)].
  pose proof (sample_quiet b k) as [S1 S2].
  destruct (sample Hs b k) as [[b1 q] l1]. cbn [snd] in *. apply after_some in E. destruct E as (l2 & E & ->).
  apply ungoing_pre; auto. exact (H _ _ _ _ _ E).
Qed.
Lemma lap_un n l l' : lap l -> (exists m, (n <= m)%nat /\ unfinished m l') -> ungoing n (l ++ l').
Proof. intros L (m & Hm & U). exists (S m). split; [lia|]. now constructor. Qed.
Lemma irq_un n c b k b' k' l : wf c ->
  (forall s b k b' k' l, wfst s -> runl Hs (ewl_loop FL n s) b k = Some (None, b', k', l) -> ungoing n l) ->
  runl Hs (pbind (irq_no_check FL false c) (fun y =>
      match snd y with
      | None => IsPastLimit (fun past => if past then Ret (Some (fst y, None)) else ewl_loop FL n (load_st (fst y)))
      | Some e => Ret (Some (fst y, Some e))
      end)) b k = Some (None, b', k', l) -> ungoing n l.
Proof.
  intros Wc IH E. destruct (irq_total FL ch absq OK c Hs b k Wc) as ([c2 u] & b2 & k2 & l2 & E3 & W3 & _).
  rewrite (runl_after _ _ _ _ _ _ _ _ _ E3) in E. cbn [fst snd] in *. apply after_some in E. destruct E as (l3 & E & ->).
  pose proof (irq_lap _ _ _ _ _ _ _ Wc E3) as L. destruct u as [u|]; [discriminate E|].
  apply lap_un; [exact L|]. refine (past_un _ _ _ _ _ _ _ _ _ E). intros. eapply IH; eauto. now apply wf_load.
Qed.
Lemma loop_un n : forall s b k b' k' l, wfst s -> runl Hs (ewl_loop FL n s) b k = Some (None, b', k', l) -> ungoing n l.
Proof.
  induction n as [|n IH]; intros s b k b' k' l Ws E.
  { injection E as <- <- <-. exists 0%nat. split; [lia|]. constructor; [constructor|reflexivity]. }
  destruct (wpl_run Hs _ _ b k (loop_ctl FL ch absq OK s Ws)) as ([s' x] & b1 & k1 & l1 & E1 & _ & _ & v & _ & _ & _ & Ws' & _ & _ & _ & L4 & L5 & L6).
  cbn [ewl_loop] in E. rewrite (runl_after _ _ _ _ _ _ _ _ _ E1) in E. cbn [fst snd] in *.
  apply after_some in E. destruct E as (l3 & E & ->). pose proof (loop_lap _ _ _ _ _ _ _ Ws E1) as L.
  assert (G : (exists m, (n <= m)%nat /\ unfinished m l3) -> ungoing (S n) (l1 ++ l3)).
  { intros (m & Hm & U). exists (S m). split; [lia|]. now constructor. }
  destruct x as [[]|]; try congruence; try discriminate E.
  - apply G. refine (past_un _ _ _ _ _ _ _ _ _ E). intros. eapply IH; [|eassumption].
    destruct Ws' as (A1 & A2 & A3). split; [|split]; cbn [sc sfl spc]; auto with rng.
  - apply G. refine (past_un _ _ _ _ _ _ _ _ _ E). clear E. intros bb b2 k2 l2. apply test_un. clear -IH Ws' OK.
    intros q b b' k' l E. destruct q; [|exact (IH _ _ _ _ _ _ Ws' E)].
    refine (irq_un n _ _ _ _ _ _ _ IH E). now apply wf_store.
Qed.
Lemma start_un n c b k b' k' l : wf c -> runl Hs (ewl_start FL n c) b k = Some (None, b', k', l) -> ungoing n l.
Proof.
  intros Wc. unfold ewl_start. destruct (last_ei c).
  - apply loop_un, wf_load. auto with rng.
  - apply test_un. clear -Wc OK. intros q b b' k' l E. destruct q.
    + exact (irq_un n c _ _ _ _ _ Wc (loop_un n) E).
    + refine (loop_un n _ _ _ _ _ _ _ E). now apply wf_load.
Qed.
Lemma ewl_un da n c b k b' k' l : wf c -> runl Hs (execute_with_limit FL da n c) b k = Some (None, b', k', l) ->
  exists m, (n <= m)%nat /\ unfinished m l.
Proof.
  intros Wc. unfold execute_with_limit. destruct (halt c).
  2: { apply past_un. intros. eapply start_un; eauto. }
  destruct (da && negb (is_int_allowed (prefix c) (last_ei c))); [discriminate|].
  assert (G : forall N m c b k b' k' l, wf c -> runl Hs (hl FL m N c) b k = Some (None, b', k', l) -> exists j, (Nat.min m N <= j)%nat /\ unfinished j l).
  { clear -OK. intros N. induction m as [|m IH]; intros c b k b' k' l Wc E.
    { injection E as <- <- <-. exists 0%nat. split; [lia|constructor]. }
    rewrite hl_run in E. apply after_some in E. destruct E as (l1 & E & ->). destruct (h_is_past_limit Hs k) eqn:EP; [discriminate E|].
    cbn [app]. change (ungoing (Nat.min (S m) N) l1).
    assert (MS : forall b k b' k' l, m1_step Hs c k (fun k => runl Hs (hl FL m N (inc_r c)) b k) = Some (None, b', k', l) -> ungoing (Nat.min (S m) N) l).
    { clear -IH Wc. intros b k b' k' l E. unfold m1_step in E. destruct (h_add_m1 Hs k (pc c)) as [k1 t].
      apply after_some in E. destruct E as (l2 & E & ->).
      assert (Wr : wf (inc_r c)) by auto with rng.
      destruct (IH _ _ _ _ _ _ Wr E) as (j & J1 & J2). exists (S j). split; [lia|]. apply uf_lap; [|exact J2].
      split; [repeat constructor|cbn; lia]. }
    destruct (iff1 c); [|exact (MS _ _ _ _ _ E)]. pose proof (sample_quiet b k) as [S1 S2].
    destruct (sample Hs b k) as [[b1 q] l2]. cbn [snd] in *. apply after_some in E. destruct E as (l3 & E & ->). apply ungoing_pre; auto.
    destruct q; [|exact (MS _ _ _ _ _ E)]. destruct (start_un _ _ _ _ _ _ _ Wc E) as (j & J1 & J2). exists j. split; [lia|exact J2]. }
  intros E. destruct (G n n _ _ _ _ _ _ Wc E) as (j & J1 & J2). exists j. split; [lia|exact J2].
Qed.

(** ** On a clock *)
Section Clock.
Variables (now : CK -> Z) (lim bot top : Z).
Hypothesis MT : metered Hs now lim bot top.
Fixpoint looks (t : Z) (l : log) : Prop :=
  match l with
  | [] => True
  | KPast q :: l => (t < top -> q = (lim <=? t)) /\ looks t l
  | e :: l => looks (t + (spent e + held e)) l
  end.
Lemma looks_app l l' : forall t, Forall no_look l -> looks t (l ++ l') -> looks (t + (busy l + held_up l)) l'.
Proof.
  induction l as [|e l IH]; intros t N H; [cbn [app] in H; replace (t + _) with t by (cbn; lia); exact H|].
  inversion N as [|? ? N1 N2]; subst. rewrite busy_cons, held_cons.
  assert (X : looks (t + (spent e + held e)) (l ++ l')) by (destruct e; try contradiction N1; exact H).
  apply IH in X; [|exact N2]. replace (t + (spent e + busy l + (held e + held_up l))) with (t + (spent e + held e) + (busy l + held_up l)) by lia. exact X.
Qed.
Lemma track {A} (p : prog A) : forall b k x b' k' l tm, runl Hs p b k = Some (x, b', k', l) ->
  Forall (fun e => 0 <= spent e) l -> Forall (fun e => 0 <= held e) l -> bot <= tm -> (tm < top -> now k = tm) ->
  looks tm l /\ (tm + (busy l + held_up l) < top -> now k' = tm + (busy l + held_up l)).
Proof.
  induction p; intros b0 k0 x b' k' l0 tm E P1 P2 HB HK; cbn [runl] in E.
  1: { injection E as <- <- <- <-. split; [exact I|]. cbn. rewrite Z.add_0_r. exact HK. }
  1: { discriminate E. }
  all: repeat match type of E with context [let (_, _) := ?x in _] => let F := fresh "F" in destruct x eqn:F end.
  all: cbv zeta in E; apply cons_log_inv in E; destruct E as (l' & E & ->).
  all: inversion P1 as [|? ? N1 P1']; inversion P2 as [|? ? N2 P2']; subst.
  all: try match type of F with
    | h_add_irq _ ?c ?a = _ => pose proof (mt_irq _ _ _ _ _ MT c a) as G; rewrite F in G; cbn [fst] in G
    | h_add_m1 _ ?c ?a = _ => pose proof (mt_m1 _ _ _ _ _ MT c a) as G; rewrite F in G; cbn [fst] in G
    | h_add_mreq _ ?c ?a = _ => pose proof (mt_mreq _ _ _ _ _ MT c a) as G; rewrite F in G; cbn [fst] in G
    | h_add_io _ ?c ?a = _ => pose proof (mt_io _ _ _ _ _ MT c a) as G; rewrite F in G; cbn [fst] in G
    end.
  all: match type of E with
    | runl _ _ _ (h_add_no_mreq _ ?c ?a ?n) = _ => pose proof (mt_idle _ _ _ _ _ MT c a n) as G
    | runl _ _ _ (h_add_wait _ ?c ?a ?n) = _ => pose proof (mt_wait _ _ _ _ _ MT c a n) as G
    | _ => idtac end.
  all: match type of P1 with Forall _ (?e :: _) => match type of E with runl _ _ _ ?k1 = _ =>
    assert (HK' : tm + (spent e + held e) < top -> now k1 = tm + (spent e + held e)) by
      (cbn [spent held] in *; intros HT; rewrite ?Z.add_0_r in *; rewrite ?Z.add_0_l in *;
       first [exact (HK HT)|pose proof (HK ltac:(lia)); rewrite G; lia]) end end.
  all: match type of HK' with ?u < _ -> _ => assert (HB' : bot <= u) by (cbn [spent held] in *; lia) end.
  all: first [ specialize (IHp _ _ _ _ _ _ _ E P1' P2' HB' HK') as [X1 X2] | specialize (H _ _ _ _ _ _ _ _ E P1' P2' HB' HK') as [X1 X2]
             | specialize (H _ _ _ _ _ _ _ _ _ E P1' P2' HB' HK') as [X1 X2] ].
  all: rewrite busy_cons, held_cons.
  all: match goal with |- looks ?u _ /\ (_ -> now _ = _ + (?s + ?a + (?h + ?b))) =>
    replace (u + (s + a + (h + b))) with (u + (s + h) + (a + b)) by lia end.
  all: split; [|exact X2].
  all: try exact X1.
  cbn [looks spent held] in *. rewrite !Z.add_0_r in X1. split; [|exact X1]. intros HT. rewrite (mt_past _ _ _ _ _ MT), (HK HT). reflexivity.
Qed.
Lemma paced_end r l : paced r l -> forall t, looks t l -> Forall (fun e => 0 <= held e) l -> lim + 22 + held_up l < top -> t < top ->
  t + (busy l + held_up l) <= Z.max t (lim + 22 + held_up l) /\ (r = true -> lim <= t + (busy l + held_up l)).
Proof.
  assert (HP : forall l : log, Forall (fun e => 0 <= held e) l -> 0 <= held_up l).
  { induction 1; [reflexivity|]. rewrite held_cons. lia. }
  induction 1 as [|l [L1 L2]|r l l' [L1 L2] P IH]; intros t K H B HT.
  - cbn [looks] in K. destruct K as [K _]. specialize (K HT). symmetry in K. apply Z.leb_le in K. cbn. lia.
  - cbn [looks] in K. destruct K as [K _]. specialize (K HT). symmetry in K. apply Z.leb_gt in K.
    rewrite busy_cons, held_cons. cbn [spent held]. split; [lia|discriminate].
  - cbn [looks] in K. destruct K as [K K2]. specialize (K HT). symmetry in K. apply Z.leb_gt in K.
    apply Forall_inv_tail in H. apply Forall_app in H. destruct H as [H1 H2]. apply HP in H1.
    pose proof (HP _ H2) as H3. rewrite busy_cons, held_cons, busy_app, held_app in *. cbn [spent held] in *.
    apply looks_app in K2; [|exact L1]. specialize (IH _ K2 H2 ltac:(lia) ltac:(lia)). split; [lia|]. intros R. destruct IH as [_ IH]. specialize (IH R). lia.
Qed.
Lemma overshoot da n c b k c' r b' k' l : wf c -> runl Hs (execute_with_limit FL da n c) b k = Some (Some (c', r), b', k', l) ->
  Forall (fun e => 0 <= held e) l -> lim + 22 + held_up l < top -> bot <= now k < top ->
  now k' = now k + (busy l + held_up l) /\ now k <= now k' <= Z.max (now k) (lim + 22 + held_up l) /\ (r = None -> lim <= now k').
Proof.
  intros Wc E H B HT. pose proof (ewl_paced _ _ _ _ _ _ _ _ _ Wc E) as P.
  assert (DA : da = true -> halt c = true -> is_int_allowed (prefix c) (last_ei c) = true).
  { intros -> Hh. unfold execute_with_limit in E. rewrite Hh in E. destruct (is_int_allowed _ _); [reflexivity|discriminate E]. }
  destruct (wpl_at _ _ _ _ _ _ _ _ _ _ _ (execute_with_limit_stm FL da n c Wc DA) E) as [ST _].
  pose proof (spent_nonneg _ None (ST None)) as S.
  destruct (track _ _ _ _ _ _ _ (now k) E S H (proj1 HT) ltac:(auto)) as [K X].
  destruct (paced_end _ _ P _ K H B (proj2 HT)) as [P1 P2]. specialize (X ltac:(lia)). rewrite X. split; [reflexivity|].
  assert (0 <= busy l) by now apply busy_nonneg.
  assert (0 <= held_up l) by (clear -H; induction H; [reflexivity|]; rewrite held_cons; lia).
  split; [lia|]. intros ->. now apply P2.
Qed.
(** Without wait states the run is not cut off. *)
Hypothesis NW : no_waits Hs.
Lemma run_held {A} (p : prog A) : forall e b k x b' k' l, runl Hs p b k = Some (x, b', k', l) -> stamped e l ->
  match e with Some (EIn _ _ _ w) | Some (EOut _ _ _ _ w) | Some (EIrqData _ _ _ w) => w = None | _ => True end ->
  Forall (fun e => held e = 0) l.
Proof.
  induction p; intros e b0 k0 x b' k' l0 E ST HE; cbn [runl] in E.
  1: { injection E as <- <- <- <-. constructor. }
  1: { discriminate E. }
  all: repeat match type of E with context [let (_, _) := ?x in _] => let F := fresh "F" in destruct x eqn:F end.
  all: cbv zeta in E; apply cons_log_inv in E; destruct E as (l' & E & ->).
  all: cbn [stamped covered] in ST; destruct ST as [ST1 ST2]; constructor; [cbn [held]; try reflexivity|].
  all: try (first [ refine (IHp _ _ _ _ _ _ _ E ST2 I) | refine (H _ _ _ _ _ _ _ _ E ST2 I) | refine (H _ _ _ _ _ _ _ _ _ E ST2 I) ]).
  all: try match goal with |- _ = 0 => destruct e as [[]|]; try contradiction ST1; destruct w; try contradiction ST1; discriminate HE end.
  all: refine (H _ _ _ _ _ _ _ _ _ E ST2 _).
  all: match goal with
  | F : h_read_io _ ?b ?p ?t = _ |- _ => pose proof (nw_in _ NW b p t) as X
  | F : h_write_io _ ?b ?p ?v ?t = _ |- _ => pose proof (nw_out _ NW b p v t) as X
  | F : h_irq_data _ ?b ?p ?t = _ |- _ => pose proof (nw_ack _ NW b p t) as X
  end; repeat match goal with F : _ = (_, _) |- _ => rewrite F in X end; exact X.
Qed.
Lemma held_zero (l : log) : Forall (fun e => held e = 0) l -> held_up l = 0 /\ Forall (fun e => 0 <= held e) l.
Proof.
  induction 1 as [|e l H HF [I1 I2]]; [split; [reflexivity|constructor]|]. rewrite held_cons. split; [lia|]. constructor; [lia|exact I2].
Qed.
Lemma unfinished_time n l : unfinished n l -> forall t, looks t l -> held_up l = 0 -> Forall (fun e => held e = 0) l -> lim + 22 < top -> t < top ->
  n = 0%nat \/ t + 4 * (Z.of_nat n - 1) < lim.
Proof.
  induction 1 as [|l U1 U2|n l l' [L1 L2] P IH]; intros t K H0 H B HT; auto. right.
  cbn [looks] in K. destruct K as [K K2]. specialize (K HT). symmetry in K. apply Z.leb_gt in K.
  apply Forall_inv_tail in H. apply Forall_app in H. destruct H as [H1 H2]. apply held_zero in H1. destruct H1 as [H1 _].
  pose proof (held_zero _ H2) as [H3 _].
  apply looks_app in K2; [|exact L1]. specialize (IH _ K2 H3 H2 B ltac:(lia)). lia.
Qed.
Lemma returns da n c b k : wf c -> (da = true -> halt c = true -> prefix c = None /\ last_ei c = false) -> lim + 22 < top -> bot <= now k < top ->
  lim - now k <= 4 * (Z.of_nat n - 1) -> (0 < n)%nat ->
  exists c' r b' k' l, runl Hs (execute_with_limit FL da n c) b k = Some (Some (c', r), b', k', l) /\ held_up l = 0 /\
    now k' = now k + busy l /\ now k <= now k' <= Z.max (now k) (lim + 22) /\ (r = None -> lim <= now k') /\
    (forall e, r = Some e -> now k + 4 <= now k').
Proof.
  intros Wc DA B HT HN N0.
  assert (DA' : da = true -> halt c = true -> is_int_allowed (prefix c) (last_ei c) = true).
  { intros X Y. destruct (DA X Y) as [-> ->]. reflexivity. }
  pose proof (execute_with_limit_stm (TS:=TS) (WB:=WB) (RB:=RB) FL da n c Wc DA') as ST.
  destruct (wpl_run Hs _ _ b k ST) as (y & b' & k' & l & E & S1 & _).
  pose proof (run_held _ None _ _ _ _ _ _ E (S1 None) I) as HH. destruct (held_zero _ HH) as [HZ HP].
  pose proof (spent_nonneg _ None (S1 None)) as SN.
  destruct y as [[c' r]|].
  - exists c', r, b', k', l. split; [exact E|]. split; [exact HZ|].
    destruct (overshoot da n c b k c' r b' k' l Wc E HP ltac:(lia) HT) as (O1 & O2 & O3). rewrite HZ in *.
    split; [lia|]. split; [lia|]. split; [exact O3|]. intros e ->.
    pose proof (ewl_paced _ _ _ _ _ _ _ _ _ Wc E) as P. cbn [fin snd] in P.
    assert (4 <= busy l); [|lia]. clear -P. remember false as r eqn:R in P. induction P as [|l [_ L]|r l l' [_ L] P IH]; [discriminate R| |].
    + rewrite busy_cons. cbn [spent]. lia.
    + rewrite busy_cons, busy_app. cbn [spent]. specialize (IH R). lia.
  - exfalso. destruct (ewl_un _ _ _ _ _ _ _ _ Wc E) as (m & Hm & U).
    destruct (track _ _ _ _ _ _ _ (now k) E SN HP (proj1 HT) ltac:(auto)) as [K X].
    destruct (unfinished_time _ _ U _ K HZ HH B (proj2 HT)); lia.
Qed.
End Clock.
End P.

(** A [TsCounter] of any type. *)
Definition lowest (T : itype) : Z := if signed T then - 2 ^ (bits T - 1) else 0.
Definition highest (T : itype) : Z := if signed T then 2 ^ (bits T - 1) - 1 else 2 ^ bits T - 1.
Lemma ts_metered {WB RB BS} T lim rdb wrm rio wio irq vec rti : 0 < bits T ->
  metered (ts_host (WB:=WB) (RB:=RB) (BS:=BS) T lim rdb wrm rio wio irq vec rti) (fun k => k) lim (lowest T) (highest T + 1).
Proof.
  intros HT. assert (G : forall k n, 0 <= n -> lowest T <= k -> k + n < highest T + 1 -> wrap T (k + n) = k + n).
  { intros k n H1 H2 H3. apply wrap_id; [exact HT|]. unfold in_type, lowest, highest in *. destruct (signed T); lia. }
  constructor; intros; try reflexivity; apply G; try assumption; unfold M1_CYCLE_TS, MEMRW_CYCLE_TS, IO_CYCLE_TS, IRQ_ACK_CYCLE_TS; lia.
Qed.
