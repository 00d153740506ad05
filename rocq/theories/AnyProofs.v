(** [Z80Any] behaves as the CPU it contains; conversions. *)
From Coq Require Import ZArith Bool String Ascii List Lia.
From Verif Require Import Base Parse Cpu Flavours Prog Trace Internal Instr Exec Range Accessors Any SpecAny.
Import ListNotations.
Open Scope string_scope.
Open Scope list_scope.
Open Scope Z_scope.

Section Run.
Context {TS WB RB BS CK : Type}.
Variable Hs : host TS WB RB BS CK.
Lemma run_bind {A B} (p : prog TS WB RB A) (f : A -> prog TS WB RB B) : forall b k,
  run Hs (pbind p f) b k =
  match run Hs p b k with
  | Some (a, b, k, ds) => match run Hs (f a) b k with Some (x, b, k, ds') => Some (x, b, k, ds ++ ds') | None => None end
  | None => None
  end.
Proof.
  induction p; intros b0 k0; cbn [pbind run].
  1: { now destruct (run Hs (f a) b0 k0) as [[[[? ?] ?] ?]|]. }
  1: reflexivity.
  all: repeat match goal with |- context [let (_, _) := ?x in _] => destruct x end.
  all: try apply H; try apply IHp.
  rewrite IHp. destruct (run Hs p b0 k0) as [[[[x b] k] ds]|]; [|reflexivity].
  destruct (run Hs (f x) b k) as [[[[y b'] k'] ds']|]; reflexivity.
Qed.
Lemma run_pmap {A B} (f : A -> B) (p : prog TS WB RB A) b k :
  run Hs (pmap f p) b k = match run Hs p b k with Some (x, b, k, ds) => Some (f x, b, k, ds) | None => None end.
Proof.
  unfold pmap. rewrite run_bind. destruct (run Hs p b k) as [[[[x b'] k'] ds]|]; [|reflexivity]. cbn [run]. now rewrite app_nil_r.
Qed.
Lemma call_forward {Q} (FL : Flavour Q) (inj : cpu Q -> z80any) : variant FL inj ->
  forall m c b k, run Hs (any_call m (inj c)) b k =
    match run Hs (z80_call FL m c) b k with
    | Some (x, b, k, ds) => Some (option_map (fun y => (inj (fst y), snd y)) x, b, k, ds)
    | None => None
    end.
Proof.
  intros V m c b k. destruct V; destruct m; try reflexivity;
    cbn [any_call z80_call]; unfold ret_run, ret_opt, any_irq, any_nmi, any_execute_instruction, any_execute_next, any_execute_with_limit, nmos_into_any, cmos_into_any, bm1_into_any;
    cbn [any_run any_run_opt]; rewrite !run_pmap;
    match goal with |- context [run Hs ?p b k] => destruct (run Hs p b k) as [[[[x b'] k'] ds]|]; [|reflexivity] end;
    try reflexivity; destruct x as [[? ?]|]; reflexivity.
Qed.
Lemma drive_forward {Q A} (FL : Flavour Q) (inj : cpu Q -> z80any) : variant FL inj ->
  forall (cl : client A) c b k, run Hs (drive any_call cl (inj c)) b k =
    match run Hs (drive (z80_call FL) cl c) b k with
    | Some (x, b, k, ds) => Some (option_map (fun y => (inj (fst y), snd y)) x, b, k, ds)
    | None => None
    end.
Proof.
  intros V cl. induction cl as [a|m kk IH]; intros c b k; [reflexivity|]. cbn [drive]. rewrite !run_bind, (call_forward FL inj V).
  destruct (run Hs (z80_call FL m c) b k) as [[[[[[c' v]|] b'] k'] ds]|]; cbn [option_map fst snd run]; [|reflexivity|reflexivity].
  rewrite IH. destruct (run Hs (drive (z80_call FL) (kk v) c') b' k') as [[[[x b2] k2] ds2]|]; reflexivity.
Qed.
End Run.

Lemma into_flavour_keeps {Q1 Q2} (f : Q1 -> Q2) (c : cpu Q1) :
  (forall x, rget x (into_flavour f c) = rget x c) /\
  (forall q, pget q (into_flavour f c) = pget q c) /\
  ir (into_flavour f c) = ir c /\ r (into_flavour f c) = r c /\
  others (into_flavour f c) = (let '(p, s, m, i, ff, h, px, e, q) := others c in (p, s, m, i, ff, h, px, e, f q)).
Proof. repeat split; intros x; destruct x; reflexivity. Qed.
Lemma into_flavour_comp {Q1 Q2 Q3} (f : Q1 -> Q2) (g : Q2 -> Q3) (c : cpu Q1) :
  into_flavour g (into_flavour f c) = into_flavour (fun q => g (f q)) c.
Proof. reflexivity. Qed.
Lemma into_flavour_id {Q} (f : Q -> Q) (c : cpu Q) : f (flavour c) = flavour c -> into_flavour f c = c.
Proof. intros H. destruct c. unfold into_flavour. cbn in *. now rewrite H. Qed.
Lemma through_cmos_all : forall c : cpu qstate,
  into_flavour cmos_to_nmos (into_flavour nmos_to_cmos c) = set_flavour q_default c /\
  into_flavour cmos_to_bm1 (into_flavour bm1_to_cmos c) = set_flavour q_default c /\
  forall d : cpu unit, into_flavour nmos_to_cmos (into_flavour cmos_to_nmos d) = d /\ into_flavour bm1_to_cmos (into_flavour cmos_to_bm1 d) = d.
Proof.
  intros c. split; [reflexivity|]. split; [reflexivity|]. intros d. destruct d as [? ? ? ? ? ? ? ? ? ? ? ? ? ? ? ? ? ? ? ? ? []]. split; reflexivity.
Qed.

Lemma lower_upper ch : to_lower (upper ch) = to_lower ch.
Proof. destruct ch as [[] [] [] [] [] [] [] []]; reflexivity. Qed.
Lemma upper_lower ch ch' : to_lower ch = to_lower ch' <-> upper ch = upper ch'.
Proof.
  assert (U : forall x, upper (to_lower x) = upper x) by (intros [[] [] [] [] [] [] [] []]; reflexivity).
  split; intros H; [rewrite <- (U ch), <- (U ch'); now rewrite H|rewrite <- (lower_upper ch), <- (lower_upper ch'); now rewrite H].
Qed.
Lemma eq_ignore_case_iff s t : eq_ignore_case s t = true <-> upcase s = upcase t.
Proof.
  revert t. induction s as [|a s IH]; intros [|b t]; cbn [eq_ignore_case upcase]; split; try discriminate; try reflexivity.
  - intros H. apply andb_prop in H as [H1 H2]. apply Ascii.eqb_eq, upper_lower in H1. apply IH in H2. congruence.
  - intros [= H1 H2]. apply andb_true_intro. split; [apply Ascii.eqb_eq; now apply upper_lower|now apply IH].
Qed.
Lemma with_tag_iff s a : with_tag s = Some a <->
  (upcase s = "NMOS"%string /\ a = new_nmos) \/ (upcase s = "CMOS"%string /\ a = new_cmos) \/ (upcase s = "BM1"%string /\ a = new_bm1).
Proof.
  unfold with_tag.
  assert (E1 := eq_ignore_case_iff s "NMOS"). assert (E2 := eq_ignore_case_iff s "CMOS"). assert (E3 := eq_ignore_case_iff s "BM1").
  change (upcase "NMOS") with "NMOS"%string in E1. change (upcase "CMOS") with "CMOS"%string in E2. change (upcase "BM1") with "BM1"%string in E3.
  destruct (eq_ignore_case s "NMOS").
  { assert (E := proj1 E1 eq_refl). rewrite E. split; [intros [= <-]; left; now split|].
    intros [[_ ->]|[[H _]|[H _]]]; [reflexivity|discriminate|discriminate]. }
  destruct (eq_ignore_case s "CMOS").
  { assert (E := proj1 E2 eq_refl). rewrite E. split; [intros [= <-]; right; left; now split|].
    intros [[H _]|[[_ ->]|[H _]]]; [discriminate|reflexivity|discriminate]. }
  destruct (eq_ignore_case s "BM1").
  { assert (E := proj1 E3 eq_refl). rewrite E. split; [intros [= <-]; right; right; now split|].
    intros [[H _]|[[H _]|[_ ->]]]; [discriminate|discriminate|reflexivity]. }
  split; [discriminate|]. intros [[H _]|[[H _]|[H _]]]; [apply E1 in H|apply E2 in H|apply E3 in H]; discriminate.
Qed.
Lemma any_roundtrip :
  (forall c, unwrap_nmos (nmos_into_any c) = Some c /\ any_into_nmos_cpu (nmos_into_any c) = c /\ unwrap_cmos (nmos_into_any c) = None /\ unwrap_bm1 (nmos_into_any c) = None) /\
  (forall c, unwrap_cmos (cmos_into_any c) = Some c /\ any_into_cmos_cpu (cmos_into_any c) = c /\ unwrap_nmos (cmos_into_any c) = None /\ unwrap_bm1 (cmos_into_any c) = None) /\
  (forall c, unwrap_bm1 (bm1_into_any c) = Some c /\ any_into_bm1_cpu (bm1_into_any c) = c /\ unwrap_nmos (bm1_into_any c) = None /\ unwrap_cmos (bm1_into_any c) = None).
Proof. repeat split; destruct c; reflexivity. Qed.
Lemma any_convert : forall a : z80any,
  Forall (fun f => (forall x, any_rget x (f a) = any_rget x a) /\ any_others (f a) = any_others a)
    [any_into_nmos; any_into_cmos; any_into_bm1] /\
  any_tag (any_into_nmos a) = "NMOS"%string /\ any_tag (any_into_cmos a) = "CMOS"%string /\ any_tag (any_into_bm1 a) = "BM1"%string /\
  (any_tag a = "NMOS"%string -> any_into_nmos a = a) /\ (any_tag a = "CMOS"%string -> any_into_cmos a = a) /\ (any_tag a = "BM1"%string -> any_into_bm1 a = a) /\
  (is_nmos a = true <-> any_tag a = "NMOS"%string) /\ (is_cmos a = true <-> any_tag a = "CMOS"%string) /\ (is_bm1 a = true <-> any_tag a = "BM1"%string).
Proof.
  intros [c|c|c]; (split; [repeat (constructor; [split; [intros x; destruct x; reflexivity|reflexivity]|]); constructor|]);
    do 3 (split; [reflexivity|]); repeat split; try discriminate; intros _; destruct c; reflexivity.
Qed.
