(** What [execute_with_limit] returns, and when it does: C21, C23, C39. *)
From Coq Require Import ZArith Bool List Lia.
From Verif Require Import Base Flags Ops Parse Cpu Flavours Prog Trace Internal Instr Exec Range Safe SafeEntry SafeRun
  SpecAlu SpecState SpecIsa SpecCycles SpecStep SpecLog SpecReach SpecLoop IsaLink IsaArith IsaTac IsaCycles IsaFacts IsaExec
  IsaRun Steps Lock IsaControl Accessors AluProofs Decode Control Reach Stamp StampRun Drive.
Import ListNotations.
Open Scope Z_scope.

Section L.
Context {Q T TS WB RB : Type}.
Variables (FL : Flavour Q) (ch : chip T) (absq : Q -> T).
Hypothesis OK : chip_ok FL ch absq.
Implicit Types c d : cpu Q.
Implicit Types s : @st Q.
Notation prog := (prog TS WB RB).
Notation log := (list (ev TS WB RB)).
Notation host := (host TS WB RB).
Context {BS CK : Type} (Hs : host BS CK).

(** ** C21 *)
Definition ok21 (y : cpu Q * result WB RB) (k : CK) (l : log) : Prop :=
  (snd y = None -> h_is_past_limit Hs k = true /\ exists l0, l = l0 ++ [KPast true]) /\
  (snd y = Some BHalt -> halt (fst y) = true).
Lemma ok21_app y k l l0 : ok21 y k l -> ok21 y k (l0 ++ l).
Proof.
  intros [H1 H2]. split; [|exact H2]. intros E. destruct (H1 E) as [X [l1 ->]]. split; [exact X|].
  exists (l0 ++ l1). apply app_assoc.
Qed.
(** The limit is tested, [c] returned if it is passed. *)
Lemma past21 c f b k y b' k' l :
  (forall b k y b' k' l, runl Hs f b k = Some (Some y, b', k', l) -> ok21 y k' l) ->
  runl Hs (IsPastLimit (fun past => if past then Ret (Some (c, None)) else f)) b k = Some (Some y, b', k', l) -> ok21 y k' l.
Proof.
  intros H E. rewrite past_run in E. apply after_some in E. destruct E as (l2 & E & ->).
  destruct (h_is_past_limit Hs k) eqn:EP.
  - injection E as <- <- <- <-. split; [|discriminate]. intros _. split; [exact EP|]. now exists [].
  - apply ok21_app. exact (H _ _ _ _ _ _ E).
Qed.
Lemma test21 a f b k y b' k' l :
  (forall q b k y b' k' l, runl Hs (f q) b k = Some (Some y, b', k', l) -> ok21 y k' l) ->
  runl Hs (test_irq a f) b k = Some (Some y, b', k', l) -> ok21 y k' l.
Proof.
  intros H E. rewrite test_run in E. destruct a; [|exact (H _ _ _ _ _ _ _ E)].
  destruct (sample Hs b k) as [[b1 q] l1]. apply after_some in E. destruct E as (l2 & E & ->).
  apply ok21_app. exact (H _ _ _ _ _ _ _ E).
Qed.
Lemma irq21 n c b k y b' k' l : wf c ->
  (forall s b k y b' k' l, wfst s -> runl Hs (ewl_loop FL n s) b k = Some (Some y, b', k', l) -> ok21 y k' l) ->
  runl Hs (pbind (irq_no_check FL false c) (fun y =>
      match snd y with
      | None => IsPastLimit (fun past => if past then Ret (Some (fst y, None)) else ewl_loop FL n (load_st (fst y)))
      | Some e => Ret (Some (fst y, Some e))
      end)) b k = Some (Some y, b', k', l) -> ok21 y k' l.
Proof.
  intros Wc IH E. destruct (irq_total FL ch absq OK c Hs b k Wc) as ([c2 u] & b2 & k2 & l2 & E3 & W3 & _ & _ & _ & _ & _ & _ & _ & _ & HT).
  rewrite (runl_after _ _ _ _ _ _ _ _ _ E3) in E. cbn [fst snd] in *. apply after_some in E. destruct E as (l3 & E & ->).
  apply ok21_app. destruct u as [u|].
  - injection E as <- <- <- <-. split; [discriminate|]. cbn [fst snd]. apply HT.
  - refine (past21 _ _ _ _ _ _ _ _ _ E). intros. eapply IH; eauto. now apply wf_load.
Qed.
Lemma loop21 n : forall s b k y b' k' l, wfst s -> runl Hs (ewl_loop FL n s) b k = Some (Some y, b', k', l) -> ok21 y k' l.
Proof.
  induction n as [|n IH]; intros s b k y b' k' l Ws E; [discriminate E|].
  destruct (wpl_run Hs _ _ b k (loop_ctl FL ch absq OK s Ws)) as ([s' x] & b1 & k1 & l1 & E1 & _ & _ & v & _ & _ & _ & Ws' & _ & _ & _ & L4 & L5 & L6).
  cbn [ewl_loop] in E. rewrite (runl_after _ _ _ _ _ _ _ _ _ E1) in E. cbn [fst snd] in *.
  apply after_some in E. destruct E as (l3 & E & ->). apply ok21_app.
  destruct x as [[]|]; try congruence.
  - refine (past21 _ _ _ _ _ _ _ _ _ E). intros. eapply IH; [|eassumption].
    destruct Ws' as (A1 & A2 & A3). split; [|split]; cbn [sc sfl spc]; auto with rng.
  - injection E as <- <- <- <-. split; [discriminate|]. intros _. exact (L6 eq_refl).
  - injection E as <- <- <- <-. split; discriminate.
  - injection E as <- <- <- <-. split; discriminate.
  - refine (past21 _ _ _ _ _ _ _ _ _ E). clear E. intros bb kk yy b2 k2 l2. apply test21. clear -IH Ws' OK.
    intros q b k y b' k' l E. destruct q; [|exact (IH _ _ _ _ _ _ _ Ws' E)].
    refine (irq21 n _ _ _ _ _ _ _ _ IH E). now apply wf_store.
Qed.
Lemma start21 n c b k y b' k' l : wf c -> runl Hs (ewl_start FL n c) b k = Some (Some y, b', k', l) -> ok21 y k' l.
Proof.
  intros Wc. unfold ewl_start. destruct (last_ei c).
  - apply loop21, wf_load. auto with rng.
  - apply test21. clear -Wc OK. intros q b k y b' k' l E. destruct q.
    + exact (irq21 n c _ _ _ _ _ _ Wc (loop21 n) E).
    + refine (loop21 n _ _ _ _ _ _ _ _ E). now apply wf_load.
Qed.
Lemma ewl21 da n c b k y b' k' l : wf c -> runl Hs (execute_with_limit FL da n c) b k = Some (Some y, b', k', l) -> ok21 y k' l.
Proof.
  intros Wc. unfold execute_with_limit. destruct (halt c).
  2: { apply past21. intros. eapply start21; eauto. }
  destruct (da && negb (is_int_allowed (prefix c) (last_ei c))); [discriminate|].
  assert (G : forall N m c b k y b' k' l, wf c -> runl Hs (hl FL m N c) b k = Some (Some y, b', k', l) -> ok21 y k' l).
  { clear -OK. intros N. induction m as [|m IH]; intros c b k y b' k' l Wc E; [discriminate E|].
    rewrite hl_run in E. apply after_some in E. destruct E as (l1 & E & ->). destruct (h_is_past_limit Hs k) eqn:EP.
    { injection E as <- <- <- <-. split; [|discriminate]. intros _. split; [exact EP|]. now exists []. }
    apply ok21_app.
    assert (MS : forall b k y b' k' l, m1_step Hs c k (fun k => runl Hs (hl FL m N (inc_r c)) b k) = Some (Some y, b', k', l) -> ok21 y k' l).
    { clear -IH Wc. intros b k y b' k' l E. unfold m1_step in E. destruct (h_add_m1 Hs k (pc c)) as [k1 t].
      apply after_some in E. destruct E as (l2 & E & ->). apply ok21_app. refine (IH _ _ _ _ _ _ _ _ E). auto with rng. }
    destruct (iff1 c); [|exact (MS _ _ _ _ _ _ E)].
    destruct (sample Hs b k) as [[b1 q] l2]. apply after_some in E. destruct E as (l3 & E & ->). apply ok21_app.
    destruct q; [exact (start21 _ _ _ _ _ _ _ _ Wc E)|exact (MS _ _ _ _ _ _ E)]. }
  apply G. exact Wc.
Qed.

(** ** C23 *)
Variables (now : CK -> Z) (lim : Z).
Hypothesis TK : ticking Hs now lim.
Definition asked (e : option (ev TS WB RB)) : Prop :=
  match e with
  | Some (EIn _ _ _ (Some w)) | Some (EOut _ _ _ _ (Some w)) | Some (EIrqData _ _ _ (Some w)) => 0 <= w
  | _ => True end.
Lemma run_up {A} (p : prog A) : forall e b k x b' k' l,
  runl Hs p b k = Some (x, b', k', l) -> stamped e l -> asked e -> now k <= now k'.
Proof.
  induction p; intros e b0 k0 x b' k' l E ST AS; cbn [runl] in E.
  1: { injection E as _ _ <- _. lia. }
  1: { discriminate E. }
  all: repeat match goal with H : context [let (_, _) := ?x in _] |- _ => let E := fresh "EH" in destruct x eqn:E end.
  all: match type of E with cons_log _ ?r = _ => destruct r as [[[[? ?] ?] ?]|] eqn:ER; [|discriminate E] end.
  all: cbn [cons_log] in E; injection E as <- <- <- <-; cbn [stamped covered] in ST; destruct ST as [ST1 ST2].
  all: match goal with IH : _ |- _ => specialize (IH) end.
  all: match goal with
    | IH : forall e b k x b' k' l, _ , R : runl _ _ _ _ = _ |- _ => specialize (IH _ _ _ _ _ _ _ R ST2)
    | IH : forall y e b k x b' k' l, _ , R : runl _ (_ _) _ _ = _ |- _ => specialize (IH _ _ _ _ _ _ _ _ R ST2)
    | IH : forall y z e b k x b' k' l, _ , R : runl _ (_ _ _) _ _ = _ |- _ => specialize (IH _ _ _ _ _ _ _ _ _ R ST2) end.
  all: cbn [asked] in *.
  all: try (match goal with IH : True -> _ |- _ => specialize (IH I) end).
  all: try assumption.

  all: try match goal with
    | X : h_add_irq Hs ?k ?a = _ |- _ => pose proof (tk_irq _ _ _ TK k a) as TT; rewrite X in TT; cbn [fst] in TT; lia
    | X : h_add_m1 Hs ?k ?a = _ |- _ => pose proof (tk_m1 _ _ _ TK k a) as TT; rewrite X in TT; cbn [fst] in TT; lia
    | X : h_add_mreq Hs ?k ?a = _ |- _ => pose proof (tk_mreq _ _ _ TK k a) as TT; rewrite X in TT; cbn [fst] in TT; lia
    | X : h_add_io Hs ?k ?a = _ |- _ => pose proof (tk_io _ _ _ TK k a) as TT; rewrite X in TT; cbn [fst] in TT; lia
    | X : runl Hs _ _ (h_add_no_mreq Hs ?k ?a ?n) = _ |- _ => pose proof (tk_idle _ _ _ TK k a n) as TT; apply Z.ltb_lt in ST1; lia
    | X : runl Hs _ _ (h_add_wait Hs ?k ?a ?n) = _ |- _ => pose proof (tk_wait _ _ _ TK k a n) as TT;
        destruct e as [[]|]; try contradiction;
        match goal with w : option Z |- _ => destruct w; try contradiction end; cbn [asked] in AS; lia
    | X : h_read_io Hs ?b ?p ?t = (_, ?r), IH : _ -> now _ <= now _ |- _ => apply IH; destruct (snd r) as [w|] eqn:EW; [|exact I];
        pose proof (tk_in _ _ _ TK b p t w) as TT; rewrite X in TT; exact (TT EW)
    | X : h_write_io Hs ?b ?p ?v ?t = (_, ?r), IH : _ -> now _ <= now _ |- _ => apply IH; destruct (snd r) as [w|] eqn:EW; [|exact I];
        pose proof (tk_out _ _ _ TK b p v t w) as TT; rewrite X in TT; exact (TT EW)
    | X : h_irq_data Hs ?b ?p ?t = (_, ?r), IH : _ -> now _ <= now _ |- _ => apply IH; destruct (snd r) as [w|] eqn:EW; [|exact I];
        pose proof (tk_ack _ _ _ TK b p t w) as TT; rewrite X in TT; exact (TT EW)
    end.
Qed.
Notation returns p b k := (exists y b' k' l, runl Hs p b k = Some (Some y, b', k', l)).
Lemma returns_after {X} (r : option (option X * BS * CK * log)) l :
  (exists y b' k' l', r = Some (Some y, b', k', l')) -> exists y b' k' l', after l r = Some (Some y, b', k', l').
Proof. intros (y & b' & k' & l' & ->). cbn. eauto. Qed.
Lemma not_past k : h_is_past_limit Hs k = false -> now k < lim.
Proof. intros H. destruct (Z.lt_ge_cases (now k) lim) as [L|L]; [exact L|]. rewrite (tk_past _ _ _ TK k L) in H. discriminate H. Qed.
Lemma past23 c (f : prog (option (cpu Q * result WB RB))) b k : (now k < lim -> returns f b k) ->
  returns (IsPastLimit (fun past => if past then Ret (Some (c, None)) else f)) b k.
Proof.
  intros H. rewrite past_run. apply returns_after. destruct (h_is_past_limit Hs k) eqn:EP; [do 4 eexists; reflexivity|].
  apply H. now apply not_past.
Qed.
Lemma test23 a (f : bool -> prog (option (cpu Q * result WB RB))) b k : (forall q b, returns (f q) b k) -> returns (test_irq a f : prog (option (cpu Q * result WB RB))) b k.
Proof.
  intros H. rewrite test_run. destruct a; [|apply H]. destruct (sample Hs b k) as [[b1 q] l]. apply returns_after, H.
Qed.
Lemma loop_starts s : exists f, loop_instr (TS:=TS) (WB:=WB) (RB:=RB) FL s = AddM1 (spc s) f.
Proof. eexists. reflexivity. Qed.
Lemma loop_up s b k x b' k' l : wfst s -> runl Hs (loop_instr FL s) b k = Some (x, b', k', l) -> now k + 4 <= now k'.
Proof.
  intros Ws E. pose proof (wpl_at _ _ _ _ _ _ _ _ _ _ _ (loop_instr_stm FL s Ws) E None) as ST.
  destruct (loop_starts s) as [f EF]. rewrite EF in E. cbn [runl] in E.
  pose proof (tk_m1 _ _ _ TK k (spc s)) as TT. destruct (h_add_m1 Hs k (spc s)) as [k1 t]. cbn [fst] in TT.
  destruct (runl Hs (f t) b k1) as [[[[? ?] ?] l1]|] eqn:E1; [|discriminate E]. cbn [cons_log] in E. injection E as -> -> -> <-.
  cbn [stamped] in ST. destruct ST as [_ ST]. pose proof (run_up _ _ _ _ _ _ _ _ E1 ST I). lia.
Qed.
Lemma irq_up c b k x b' k' l : wf c -> runl Hs (irq_no_check FL false c) b k = Some (x, b', k', l) -> now k <= now k'.
Proof.
  intros Wc E. destruct (wpl_at _ _ _ _ _ _ _ _ _ _ _ (irq_no_check_stm FL false c Wc) E) as [ST _].
  exact (run_up _ _ _ _ _ _ _ _ E (ST None) I).
Qed.
Lemma irq23 n c b k : wf c ->
  (forall s b k, wfst s -> now k < lim -> lim - now k <= 4 * Z.of_nat n -> returns (ewl_loop FL n s) b k) ->
  lim - now k <= 4 * Z.of_nat n ->
  returns (pbind (irq_no_check FL false c) (fun y =>
      match snd y with
      | None => IsPastLimit (fun past => if past then Ret (Some (fst y, None)) else ewl_loop FL n (load_st (fst y)))
      | Some e => Ret (Some (fst y, Some e))
      end)) b k.
Proof.
  intros Wc IH LT. destruct (irq_total FL ch absq OK c Hs b k Wc) as ([c2 u] & b2 & k2 & l2 & E3 & W3 & _).
  rewrite (runl_after _ _ _ _ _ _ _ _ _ E3). cbn [fst snd] in *. apply returns_after. pose proof (irq_up _ _ _ _ _ _ _ Wc E3).
  destruct u as [u|]; [do 4 eexists; reflexivity|]. apply past23. intros L. apply IH; [now apply wf_load|exact L|lia].
Qed.
Lemma loop23 n : forall s b k, wfst s -> now k < lim -> lim - now k <= 4 * Z.of_nat n -> returns (ewl_loop FL n s) b k.
Proof.
  induction n as [|n IH]; intros s b k Ws L1 L2; [cbn in L2; lia|].
  destruct (wpl_run Hs _ _ b k (loop_ctl FL ch absq OK s Ws)) as ([s' x] & b1 & k1 & l1 & E1 & _ & _ & v & _ & _ & _ & Ws' & _).
  cbn [ewl_loop]. rewrite (runl_after _ _ _ _ _ _ _ _ _ E1). cbn [fst snd] in *. apply returns_after.
  pose proof (loop_up _ _ _ _ _ _ _ Ws E1) as U. assert (L3 : lim - now k1 <= 4 * Z.of_nat n) by lia.
  destruct x as [[]|]; try (do 4 eexists; reflexivity).
  - apply past23. intros L. apply IH; auto. destruct Ws' as (A1 & A2 & A3). split; [|split]; cbn [sc sfl spc]; auto with rng.
  - apply past23. intros L. apply test23. intros q b2. destruct q; [|now apply IH].
    apply irq23; auto. now apply wf_store.
Qed.
Lemma start23 n c b k : wf c -> now k < lim -> lim - now k <= 4 * Z.of_nat n -> returns (ewl_start FL n c) b k.
Proof.
  intros Wc L1 L2. unfold ewl_start. destruct (last_ei c).
  - apply loop23; auto. apply wf_load. auto with rng.
  - apply test23. intros q b1. destruct q; [apply irq23; auto; apply loop23|apply loop23; auto; now apply wf_load].
Qed.
Lemma ewl23 da n c b k : wf c -> (da = true -> halt c = true -> is_int_allowed (prefix c) (last_ei c) = true) ->
  Z.max 0 (lim - now k) / 4 + (if halt c then 2 else 1) <= Z.of_nat n ->
  returns (execute_with_limit FL da n c) b k.
Proof.
  intros Wc DA HN. pose proof (Z.div_mod (Z.max 0 (lim - now k)) 4 ltac:(lia)) as D.
  pose proof (Z.mod_pos_bound (Z.max 0 (lim - now k)) 4 ltac:(lia)) as D2.
  unfold execute_with_limit. destruct (halt c) eqn:HH.
  2: { apply past23. intros L. apply start23; auto. lia. }
  replace (da && negb (is_int_allowed (prefix c) (last_ei c))) with false
    by (destruct da; [rewrite DA by reflexivity; reflexivity|reflexivity]).
  assert (G : forall m c b k, wf c -> lim - now k <= 4 * (Z.of_nat m - 1) -> (1 <= m)%nat -> lim - now k <= 4 * Z.of_nat n -> returns (hl FL m n c) b k).
  { clear -OK TK. induction m as [|m IH]; intros c b k Wc L1 L2 L3; [lia|].
    rewrite hl_run. apply returns_after. destruct (h_is_past_limit Hs k) eqn:EP; [do 4 eexists; reflexivity|]. apply not_past in EP.
    assert (MS : forall b, exists y b' k' l, m1_step Hs c k (fun k => runl Hs (hl FL m n (inc_r c)) b k) = Some (Some y, b', k', l)).
    { intros b1. unfold m1_step. pose proof (tk_m1 _ _ _ TK k (pc c)) as X. destruct (h_add_m1 Hs k (pc c)) as [k1 t]. cbn [fst] in X.
      apply returns_after. apply IH; [auto with rng|lia..]. }
    destruct (iff1 c); [|apply MS]. destruct (sample Hs b k) as [[b1 q] l2]. apply returns_after.
    destruct q; [|apply MS]. apply start23; auto. }
  apply G; auto; lia.
Qed.
End L.

(** ** The claims *)
Section Claims.
Context {Q T TS WB RB : Type}.
Variables (FL : Flavour Q) (ch : chip T) (absq : Q -> T).
Hypothesis OK : chip_ok FL ch absq.
Context {BS CK : Type} (Hs : host TS WB RB BS CK).
Implicit Types c d : cpu Q.
Lemma limit_running da c b k : wf c -> halt c = false ->
  (forall fuel c' r b' k' l, runl Hs (execute_with_limit FL da fuel c) b k = Some (Some (c', r), b', k', l) ->
   exists m d, runl Hs (drive FL m c) b k = Some (Some (d, r), b', k', l) /\ same_but_ei l c' d) /\
  (forall m d r b' k' l, runl Hs (drive FL m c) b k = Some (Some (d, r), b', k', l) ->
   exists fuel c', runl Hs (execute_with_limit FL da fuel c) b k = Some (Some (c', r), b', k', l) /\ same_but_ei l c' d).
Proof.
  intros Hw Hh. destruct (ewl_agree FL ch absq OK Hs da c b k Hw Hh) as [F B]. split.
  - intros fuel c' r b' k' l E. destruct (F _ _ _ _ _ (ex_intro _ fuel E)) as (_ & d & [m D] & S).
    exists m, d. split; [exact (D m (le_n _))|exact (same_ei_false _ _ _ S)].
  - intros m d r b' k' l E. destruct (B _ _ _ _ _ (ex_intro _ m E)) as (_ & c' & [n D] & S).
    exists n, c'. split; [exact (D n (le_n _))|exact (same_ei_false _ _ _ S)].
Qed.
Lemma limit_halted da c b k : wf c -> halt c = true -> prefix c = None -> last_ei c = false -> irq_pure Hs ->
  (forall fuel c' r b' k' l, runl Hs (execute_with_limit FL da fuel c) b k = Some (Some (c', r), b', k', l) ->
   exists m d l', runl Hs (drive FL m c) b k = Some (Some (d, r), b', k', l') /\ unsampled l = unsampled l' /\ same_but_ei l c' d) /\
  (forall m d r b' k' l', runl Hs (drive FL m c) b k = Some (Some (d, r), b', k', l') ->
   exists fuel c' l, runl Hs (execute_with_limit FL da fuel c) b k = Some (Some (c', r), b', k', l) /\
     unsampled l = unsampled l' /\ same_but_ei l c' d).
Proof.
  intros Hw Hh Hp He PU.
  assert (EE : forall n, execute_with_limit (TS:=TS) (WB:=WB) (RB:=RB) FL da n c = hl FL n n c).
  { intros n. unfold execute_with_limit. rewrite Hh, Hp, He. cbn. now rewrite andb_false_r. }
  split.
  - intros fuel c' r b' k' l E. rewrite EE in E.
    destruct (halted_fwd FL ch absq OK Hs PU fuel fuel c b k c' r b' k' l Hw Hh Hp He E) as (d & l' & [m F] & S1 & S2).
    exists m, d, l'. split; [exact F|]. split; [exact S1|exact S2].
  - intros m d r b' k' l' E.
    destruct (halted_bwd FL ch absq OK Hs PU m c b k d r b' k' l' Hw Hh Hp He E) as (c' & l & n & F & S1 & S2).
    exists n, c', l. rewrite EE. split; [now apply F|]. split; [exact S1|exact S2].
Qed.
Lemma limit_returns now lim : ticking Hs now lim ->
  forall da fuel c b k, wf c -> (da = true -> halt c = true -> prefix c = None /\ last_ei c = false) ->
  Z.max 0 (lim - now k) / 4 + (if halt c then 2 else 1) <= Z.of_nat fuel ->
  exists c' r b' k' l, runl Hs (execute_with_limit FL da fuel c) b k = Some (Some (c', r), b', k', l).
Proof.
  intros TK da fuel c b k Hw Hd Hn.
  destruct (ewl23 FL ch absq OK Hs now lim TK da fuel c b k Hw) as ([c' r] & b' & k' & l & E); [|exact Hn|eauto 6].
  intros X Y. destruct (Hd X Y) as [-> ->]. reflexivity.
Qed.
End Claims.

(** ** C39 with [execute_with_limit] *)
Section C39.
Context {Q T TS WB RB : Type}.
Variables (FL : Flavour Q) (ch : chip T) (absq : Q -> T).
Hypothesis OK : chip_ok FL ch absq.
Implicit Types c d : cpu Q.
Lemma drive_inv39 {BS CK} (Hs : host TS WB RB BS CK) m : forall c b k c' r b' k' l, inv39 c ->
  runl Hs (drive FL m c) b k = Some (Some (c', r), b', k', l) -> inv39 c'.
Proof.
  induction m as [|m IH]; intros c b k c' r b' k' l [W I] E; [discriminate E|].
  cbn [drive] in E. rewrite past_run in E. apply after_some in E. destruct E as (l1 & E & ->).
  destruct (h_is_past_limit Hs k); [injection E as <- <- <- <- <-; split; assumption|].
  assert (X : exists c1 r1 b1 k1 l2, runl Hs (execute_next FL false c) b k = Some ((c1, r1), b1, k1, l2)).
  { destruct (execute_next_follows FL ch absq OK false c W _ _ Hs b k) as ([c1 r1] & b1 & k1 & l2 & E1 & _). eauto 6. }
  destruct X as (c1 & r1 & b1 & k1 & l2 & E1). rewrite (runl_after _ _ _ _ _ _ _ _ _ E1) in E. apply after_some in E.
  destruct E as (l3 & E & ->).
  assert (I1 : inv39 c1).
  { destruct (runs_at _ _ _ _ _ _ _ _ _ _ _ (execute_next_follows FL ch absq OK false c W) E1) as (D & W' & o & _ & HA).
    split; [exact W'|]. refine (next_inv39 ch _ _ _ _ _ D _ HA). exact I. }
  cbn [fst snd] in E. destruct r1 as [e|].
  - injection E as <- <- <- <- <-. exact I1.
  - exact (IH _ _ _ _ _ _ _ _ I1 E).
Qed.
Lemma steady_app (l0 l : list (ev TS WB RB)) : steady (l0 ++ l) -> steady l.
Proof. intros H l1 l2 t t' q ->. apply (H (l0 ++ l1) l2 t t' q). now rewrite app_assoc. Qed.
Lemma running_inv39 {BS CK} (Hs : host TS WB RB BS CK) n c b k c' r b' k' l : ~ Exists fb_ack l -> wf c -> halt c = false ->
  runl Hs (execute_with_limit FL false n c) b k = Some (Some (c', r), b', k', l) -> inv39 c'.
Proof.
  intros NF W HH E.
  destruct (ag_fwd _ _ _ (ewl_agree FL ch absq OK Hs false c b k W HH) c' r b' k' l (ex_intro _ n E)) as (_ & d & [m F] & [->|[_ [[]|X]]]);
      [|contradiction].
  refine (drive_inv39 Hs m c b k d r b' k' l _ (F m (le_n _))). split; [exact W|]. now rewrite HH.
Qed.
Lemma halted_inv39 {BS CK} (Hs : host TS WB RB BS CK) N : forall m c b k c' r b' k' l, steady l -> ~ Exists fb_ack l -> inv39 c -> halt c = true ->
  runl Hs (hl FL m N c) b k = Some (Some (c', r), b', k', l) -> inv39 c'.
Proof.
  induction m as [|m IH]; intros c b k c' r b' k' l ST NF HI HH E; [discriminate E|].
  rewrite hl_run in E. apply after_some in E. destruct E as (l1 & E & ->). destruct (h_is_past_limit Hs k) eqn:EP.
  { injection E as <- <- <- <- <-. exact HI. }
  rewrite Exists_app in NF. apply steady_app in ST.
  assert (MS : forall b k l, m1_step Hs c k (fun k => runl Hs (hl FL m N (inc_r c)) b k) = Some (Some (c', r), b', k', l) ->
    steady l -> ~ Exists fb_ack l -> inv39 c').
  { clear -IH HI HH. intros b k l E ST NF. unfold m1_step in E. destruct (h_add_m1 Hs k (pc c)) as [k1 t].
    apply after_some in E. destruct E as (l2 & E & ->). rewrite Exists_app in NF. apply steady_app in ST.
    refine (IH _ _ _ _ _ _ _ _ ST _ _ _ E); [tauto| |exact HH]. destruct HI as [W I]. split; [auto with rng|exact I]. }
  destruct HI as [W I]. destruct (I HH) as [I1 I2].
  destruct (iff1 c) eqn:EI; [|exact (MS _ _ _ E ST ltac:(tauto))].
  unfold sample in E. cbv zeta in E. apply after_some in E. destruct E as (l2 & E & ->).
  destruct (snd (h_is_irq Hs b (h_as_ts Hs k))).
  2: { rewrite Exists_app in NF. apply steady_app in ST. exact (MS _ _ _ E ST ltac:(tauto)). }
  unfold ewl_start in E. rewrite I2, I1, EI in E. cbn [is_int_allowed andb negb] in E. rewrite test_run in E. unfold sample in E. cbv zeta in E.
  apply after_some in E. destruct E as (l3 & E & ->).
  cbn [app] in ST. rewrite (ST [] l3 _ _ _ eq_refl) in E. clear ST.
  set (b1 := fst _) in E. destruct (irq_total FL ch absq OK c Hs b1 k W) as ([c2 u] & b2 & k2 & l4 & E3 & W3 & v & t & w & p & l5 & EL & NA & HV & HT).
  rewrite (runl_after _ _ _ _ _ _ _ _ _ E3) in E. cbn [fst snd] in *. apply after_some in E. destruct E as (l6 & E & ->).
  assert (F1 : ~ Exists fb_ack l4 /\ ~ Exists fb_ack l6).
  { split; intros X; apply NF; right; rewrite !Exists_app; tauto. }
  assert (I3 : inv39 c2).
  { destruct (wpl_at _ _ _ _ _ _ _ _ _ _ _ (wpl_bytes _ _ (irq_no_check_isa FL ch absq OK false c W)) E3) as [(_ & o & _ & HA) HD].
    split; [exact W3|]. exact (int_inv39 ch _ _ _ _ _ HD HA). }
  destruct u as [u|]; [injection E as <- <- <- <- <-; exact I3|].
  assert (H2 : halt c2 = false) by (destruct (halt c2); [|reflexivity]; apply proj1 in HT; specialize (HT eq_refl); discriminate HT).
  assert (L2 : last_ei c2 = false).
  { destruct (last_ei c2); [|reflexivity]. exfalso. apply (proj1 F1). rewrite EL. right. left. exact (HV eq_refl). }
  apply (running_inv39 Hs N c2 b2 k2 c' r b' k' l6 (proj2 F1) W3 H2).
  unfold execute_with_limit. rewrite H2. rewrite <- E. rewrite !past_run. f_equal. destruct (h_is_past_limit Hs k2); [reflexivity|].
  unfold ewl_start. rewrite L2. unfold is_irq_allowed in NA. rewrite L2 in NA.
  rewrite test_run. replace (is_int_allowed (prefix c2) false && iff1 c2) with false; [reflexivity|]. rewrite andb_comm. symmetry. exact NA.
Qed.
Lemma limit_inv39 {BS CK} (Hs : host TS WB RB BS CK) n c b k c' r b' k' l : steady l -> ~ Exists fb_ack l -> inv39 c ->
  runl Hs (execute_with_limit FL false n c) b k = Some (Some (c', r), b', k', l) -> inv39 c'.
Proof.
  intros ST NF HI E. destruct (halt c) eqn:HH; [|exact (running_inv39 Hs n c b k c' r b' k' l NF (proj1 HI) HH E)].
  unfold execute_with_limit in E. rewrite HH in E. exact (halted_inv39 Hs n n c b k c' r b' k' l ST NF HI HH E).
Qed.
(** A line that does not change by being looked at is steady. *)
Lemma log_ts {BS CK A} (Hs : host TS WB RB BS CK) (p : prog TS WB RB A) b k x b' k' t l :
  runl Hs p b k = Some (x, b', k', KTs t :: l) -> t = h_as_ts Hs k /\ exists f, runl Hs (f t) b k = Some (x, b', k', l) /\ p = AsTs f.
Proof.
  destruct p; cbn [runl]; intros E; try discriminate E.
  all: repeat match type of E with context [let (_, _) := ?x in _] => destruct x end.
  all: cbv zeta in E; apply cons_log_inv in E; destruct E as (l' & E & EL); try discriminate EL.
  injection EL as -> <-. split; [reflexivity|]. eauto.
Qed.
Lemma log_irq {BS CK A} (Hs : host TS WB RB BS CK) (p : prog TS WB RB A) b k x b' k' t q l :
  runl Hs p b k = Some (x, b', k', EIsIrq t q :: l) ->
  q = snd (h_is_irq Hs b t) /\ exists f, runl Hs (f q) (fst (h_is_irq Hs b t)) k = Some (x, b', k', l) /\ p = IsIrq t f.
Proof.
  destruct p; cbn [runl]; intros E; try discriminate E.
  all: repeat match type of E with context [let (_, _) := ?x in _] => let F := fresh "F" in destruct x eqn:F end.
  all: cbv zeta in E; apply cons_log_inv in E; destruct E as (l' & E & EL); try discriminate EL.
  injection EL as -> -> <-. rewrite F. cbn [fst snd]. split; [reflexivity|]. eauto.
Qed.
Lemma pure_steady {BS CK A} (Hs : host TS WB RB BS CK) (p : prog TS WB RB A) : irq_pure Hs -> forall b k x b' k' l,
  runl Hs p b k = Some (x, b', k', l) -> steady l.
Proof.
  intros PU b k x b' k' l E l1 l2 t t' q ->. revert p b k E. induction l1 as [|e l1 IH]; intros p b k E; cbn [app] in E.
  - apply log_ts in E. destruct E as (-> & f & E & _). apply log_irq in E. destruct E as (Q1 & f2 & E & _).
    apply log_ts in E. destruct E as (-> & f3 & E & _). apply log_irq in E. destruct E as (Q2 & f4 & E & _).
    rewrite PU in Q2. congruence.
  - destruct p; cbn [runl] in E; try discriminate E.
    all: repeat match type of E with context [let (_, _) := ?x in _] => destruct x end.
    all: cbv zeta in E; apply cons_log_inv in E; destruct E as (l' & E & EL); injection EL as -> <-; exact (IH _ _ _ E).
Qed.
Lemma calm_inv39 q0 c : reach_calm TS WB RB FL q0 c -> inv39 c.
Proof.
  induction 1 as [|dbg c BS CK Hs b k c' x b' k' l _ [W I] E|dbg code c BS CK Hs b k c' x b' k' l Hc _ [W I] E
    |dbg c BS CK Hs b k c' x b' k' l _ [W I] E|c BS CK Hs b k c' x b' k' l _ [W I] E
    |fuel c BS CK Hs b k c' x b' k' l X1 X2 _ HI E].
  - split; [apply wf_reset; repeat constructor|]. intros H. discriminate H.
  - destruct (runs_at _ _ _ _ _ _ _ _ _ _ _ (execute_next_follows FL ch absq OK dbg c W) E) as (D & W' & o & _ & HA).
    split; [exact W'|]. refine (next_inv39 ch _ _ _ _ _ D _ HA). exact I.
  - destruct (runs_at _ _ _ _ _ _ _ _ _ _ _ (execute_instruction_follows FL ch absq OK dbg code c Hc W) E) as (D & W' & o & _ & HA).
    split; [exact W'|]. exact (exec_inv39 ch _ _ _ _ _ _ Hc D HA).
  - destruct (runs_at _ _ _ _ _ _ _ _ _ _ _ (irq_follows FL ch absq OK dbg c W) E) as (D & HA).
    destruct (int_enabled _).
    + destruct HA as (r & _ & W' & o & _ & HA). split; [exact W'|]. exact (int_inv39 ch _ _ _ _ _ D HA).
    + destruct HA as (HA & _). injection HA as -> _. split; assumption.
  - destruct (runs_at _ _ _ _ _ _ _ _ _ _ _ (nmi_follows FL ch absq OK c W) E) as (D & HA).
    destruct (nmi_enabled _).
    + destruct HA as (_ & W' & o & _ & HA). split; [exact W'|]. apply nmi_control in HA.
      intros H. destruct HA as (_ & _ & _ & HA & _). change (aHALT (abs absq c') = true) in H. cbn [fst] in HA. rewrite HA in H. discriminate H.
    + destruct HA as (HA & _). injection HA as -> _. split; assumption.
  - exact (limit_inv39 Hs fuel c b k c' x b' k' l X1 X2 HI E).
Qed.
End C39.
