(** What devices ask for during [execute_with_limit]. *)
From Coq Require Import ZArith Bool List Lia.
From Verif Require Import Base Flags Ops Parse Cpu Flavours Prog Trace Internal Instr Exec Range Clock ClockProofs Safe SafeEntry SafeRun
  SpecAlu SpecState SpecIsa SpecCycles SpecStep SpecEffects IsaLink IsaArith IsaTac IsaCycles IsaFacts IsaExec
  IsaRun Steps Lock IsaControl Accessors AluProofs Decode Control Reach Stamp StampRun Quiet QuietRun SpecReach SpecLoop Drive Loop Effects.
Import ListNotations.
Open Scope Z_scope.

Section P.
Context {Q T TS WB RB : Type}.
Variables (FL : Flavour Q) (ch : chip T) (absq : Q -> T).
Hypothesis OK : chip_ok FL ch absq.
Notation prog := (prog TS WB RB).
Notation log := (list (ev TS WB RB)).
Notation host := (host TS WB RB).
Context {BS CK : Type} (Hs : host BS CK).
Definition req (r : result WB RB) : list (break_cause WB RB) :=
  match r with Some (BWriteIo w) => [BWriteIo w] | Some (BReti x) => [BReti x] | _ => [] end.
Definition asks (y : cpu Q * result WB RB) (l : log) : Prop := requests (buses l) = req (snd y).
Lemma buses_app (l l' : log) : buses (l ++ l') = buses l ++ buses l'.
Proof. unfold buses. apply flat_map_app. Qed.
Lemma requests_app (l l' : list (bev WB RB)) : requests (l ++ l') = requests l ++ requests l'.
Proof. unfold requests. apply flat_map_app. Qed.
Lemma asks_app y l0 l : requests (buses l0) = [] -> asks y l -> asks y (l0 ++ l).
Proof. unfold asks. intros H1 H2. now rewrite buses_app, requests_app, H1. Qed.
Lemma loop_asks s b k x b' k' l : wfst s -> runl Hs (loop_instr FL s) b k = Some (x, b', k', l) ->
  requests (buses l) = req (to_result (snd x)).
Proof.
  intros Ws E. destruct (wpl_at _ _ _ _ _ _ _ _ _ _ _ (loop_instr_isa FL ch absq OK s Ws) E) as (_ & HD & o & Ho & HA).
  unfold fetch in HA. cbv zeta in HA. apply acc_m1 in HA. destruct HA as (v & bl & cl & EB & _ & HA). rewrite EB in *.
  inversion HD as [|? ? D1 D2]; subst. apply exec_eff in HA; [|assumption..]. destruct HA as [HA _].
  transitivity (requests bl); [reflexivity|]. rewrite HA, Ho. now destruct o.
Qed.
Lemma irq_asks c b k y b' k' l : wf c -> runl Hs (irq_no_check FL false c) b k = Some (y, b', k', l) -> asks y l.
Proof.
  intros Wc E. destruct (wpl_at _ _ _ _ _ _ _ _ _ _ _ (wpl_bytes _ _ (irq_no_check_isa FL ch absq OK false c Wc)) E) as [(W & o & Ho & HA) HD].
  unfold asks. rewrite Ho. clear Ho.
  unfold accept_int in HA. cbv zeta in HA. apply acc_ack in HA. destruct HA as (v & w & bl & cl & EB & _ & HA).
  rewrite EB in *. inversion HD as [|? ? D1 D2]; subst. transitivity (requests bl); [reflexivity|].
  cbn [data_byte] in D1. revert HA. generalize (abs absq (fst y)) as a'. intros a' HA. clear EB HD E.
  generalize dependent (resume (inc_R (wIFF1 false (wIFF2 false (abs absq c))))). intros a1 HA.
  destruct (aIM a1).
  - unfold exec in HA. apply exec_eff in HA; [|assumption..]. destruct HA as [HA _]. rewrite HA. now destruct o.
  - unfold push, rd16, done in HA. accs. match goal with X : (_, _) = (a', o) |- _ => injection X as <- <- end. reflexivity.
  - unfold push, rd16, done in HA. accs. match goal with X : (_, _) = (a', o) |- _ => injection X as <- <- end. reflexivity.
Qed.
Lemma past_asks c f b k y b' k' l :
  (forall b y b' k' l, runl Hs f b k = Some (Some y, b', k', l) -> asks y l) ->
  runl Hs (IsPastLimit (fun past => if past then Ret (Some (c, None)) else f)) b k = Some (Some y, b', k', l) -> asks y l.
Proof.
  intros H E. rewrite past_run in E. apply after_some in E. destruct E as (l2 & E & ->).
  destruct (h_is_past_limit Hs k) eqn:EP.
  - injection E as <- <- <- <-. reflexivity.
  - apply asks_app; [reflexivity|]. exact (H _ _ _ _ _ E).
Qed.
Lemma sample_asks b k : requests (buses (snd (sample Hs b k))) = [].
Proof. unfold sample. destruct (h_is_irq _ _ _). reflexivity. Qed.
Lemma test_asks a f b k y b' k' l :
  (forall q b y b' k' l, runl Hs (f q) b k = Some (Some y, b', k', l) -> asks y l) ->
  runl Hs (test_irq a f) b k = Some (Some y, b', k', l) -> asks y l.
Proof.
  intros H E. rewrite test_run in E. destruct a; [|exact (H _ _ _ _ _ _ E)].
  pose proof (sample_asks b k) as S1. destruct (sample Hs b k) as [[b1 q] l1]. cbn [snd] in *.
  apply after_some in E. destruct E as (l2 & E & ->). apply asks_app; auto. exact (H _ _ _ _ _ _ E).
Qed.
Lemma irq_go n c b k y b' k' l : wf c ->
  (forall s b k y b' k' l, wfst s -> runl Hs (ewl_loop FL n s) b k = Some (Some y, b', k', l) -> asks y l) ->
  runl Hs (pbind (irq_no_check FL false c) (fun y =>
      match snd y with
      | None => IsPastLimit (fun past => if past then Ret (Some (fst y, None)) else ewl_loop FL n (load_st (fst y)))
      | Some e => Ret (Some (fst y, Some e))
      end)) b k = Some (Some y, b', k', l) -> asks y l.
Proof.
  intros Wc IH E. destruct (irq_total FL ch absq OK c Hs b k Wc) as ([c2 u] & b2 & k2 & l2 & E3 & W3 & _).
  rewrite (runl_after _ _ _ _ _ _ _ _ _ E3) in E. cbn [fst snd] in *. apply after_some in E. destruct E as (l3 & E & ->).
  pose proof (irq_asks _ _ _ _ _ _ _ Wc E3) as L. destruct u as [u|].
  - injection E as <- <- <- <-. rewrite app_nil_r. exact L.
  - apply asks_app; [exact L|]. refine (past_asks _ _ _ _ _ _ _ _ _ E). intros. eapply IH; eauto. now apply wf_load.
Qed.
Lemma loop_go n : forall s b k y b' k' l, wfst s -> runl Hs (ewl_loop FL n s) b k = Some (Some y, b', k', l) -> asks y l.
Proof.
  induction n as [|n IH]; intros s b k y b' k' l Ws E; [discriminate E|].
  destruct (wpl_run Hs _ _ b k (loop_ctl FL ch absq OK s Ws)) as ([s' x] & b1 & k1 & l1 & E1 & _ & _ & v & _ & _ & _ & Ws' & _ & _ & _ & L4 & L5 & L6).
  cbn [ewl_loop] in E. rewrite (runl_after _ _ _ _ _ _ _ _ _ E1) in E. cbn [fst snd] in *.
  apply after_some in E. destruct E as (l3 & E & ->). pose proof (loop_asks _ _ _ _ _ _ _ Ws E1) as L. cbn [snd] in L.
  destruct x as [[]|]; try congruence.
  - apply asks_app; [exact L|]. refine (past_asks _ _ _ _ _ _ _ _ _ E). intros. eapply IH; [|eassumption].
    destruct Ws' as (A1 & A2 & A3). split; [|split]; cbn [sc sfl spc]; auto with rng.
  - injection E as <- <- <- <-. rewrite app_nil_r. exact L.
  - injection E as <- <- <- <-. rewrite app_nil_r. exact L.
  - injection E as <- <- <- <-. rewrite app_nil_r. exact L.
  - apply asks_app; [exact L|]. refine (past_asks _ _ _ _ _ _ _ _ _ E). clear E. intros bb yy b2 k2 l2. apply test_asks. clear -IH Ws' OK.
    intros q b y b' k' l E. destruct q; [|exact (IH _ _ _ _ _ _ _ Ws' E)].
    refine (irq_go n _ _ _ _ _ _ _ _ IH E). now apply wf_store.
Qed.
Lemma start_go n c b k y b' k' l : wf c -> runl Hs (ewl_start FL n c) b k = Some (Some y, b', k', l) -> asks y l.
Proof.
  intros Wc. unfold ewl_start. destruct (last_ei c).
  - apply loop_go, wf_load. auto with rng.
  - apply test_asks. clear -Wc OK. intros q b y b' k' l E. destruct q.
    + exact (irq_go n c _ _ _ _ _ _ Wc (loop_go n) E).
    + refine (loop_go n _ _ _ _ _ _ _ _ E). now apply wf_load.
Qed.
Lemma ewl_asks da n c b k y b' k' l : wf c -> runl Hs (execute_with_limit FL da n c) b k = Some (Some y, b', k', l) ->
  requests (buses l) = req (snd y).
Proof.
  intros Wc. unfold execute_with_limit. destruct (halt c).
  2: { apply past_asks. intros. eapply start_go; eauto. }
  destruct (da && negb (is_int_allowed (prefix c) (last_ei c))); [discriminate|].
  assert (G : forall N m c b k y b' k' l, wf c -> runl Hs (hl FL m N c) b k = Some (Some y, b', k', l) -> asks y l).
  { clear -OK. intros N. induction m as [|m IH]; intros c b k y b' k' l Wc E; [discriminate E|].
    rewrite hl_run in E. apply after_some in E. destruct E as (l1 & E & ->). destruct (h_is_past_limit Hs k) eqn:EP.
    { injection E as <- <- <- <-. reflexivity. }
    apply asks_app; [reflexivity|].
    assert (MS : forall b k y b' k' l, m1_step Hs c k (fun k => runl Hs (hl FL m N (inc_r c)) b k) = Some (Some y, b', k', l) -> asks y l).
    { clear -IH Wc. intros b k y b' k' l E. unfold m1_step in E. destruct (h_add_m1 Hs k (pc c)) as [k1 t].
      apply after_some in E. destruct E as (l2 & E & ->). apply asks_app; [reflexivity|].
      refine (IH _ _ _ _ _ _ _ _ E). auto with rng. }
    destruct (iff1 c); [|exact (MS _ _ _ _ _ _ E)]. pose proof (sample_asks b k) as S1.
    destruct (sample Hs b k) as [[b1 q] l2]. cbn [snd] in *. apply after_some in E. destruct E as (l3 & E & ->). apply asks_app; auto.
    destruct q; [exact (start_go _ _ _ _ _ _ _ _ Wc E)|exact (MS _ _ _ _ _ _ E)]. }
  apply G. exact Wc.
Qed.
End P.
