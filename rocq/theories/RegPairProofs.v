From Coq Require Import ZArith Bool List Lia.
From Verif Require Import Base Parse Cpu RegPair SpecRegPair.
Import ListNotations.
Open Scope Z_scope.
Ltac Zify.zify_post_hook ::= Z.div_mod_to_equations.

Lemma value_word p : okp p -> word (value p).
Proof. destruct p as [a b]; unfold okp, value, byte, word; cbn [byte0 byte1]; lia. Qed.
Lemma value_inj p q : okp p -> okp q -> value p = value q -> p = q.
Proof. destruct p as [a b], q as [x y]; unfold okp, value, byte; cbn [byte0 byte1]; intros; f_equal; lia. Qed.
Lemma value_onto w : word w -> exists p, okp p /\ value p = w.
Proof. intros H. exists (RP (w mod 256) (w / 256)). unfold okp, value, byte, word in *; cbn [byte0 byte1]; lia. Qed.
Lemma to_le_ok v : word v -> okp (to_le_bytes v) /\ value (to_le_bytes v) = v.
Proof. unfold to_le_bytes, okp, value, byte, word; cbn [byte0 byte1]; lia. Qed.
Lemma get16_value p : rp_get16 p = value p.
Proof. unfold rp_get16, from_le_bytes, value; lia. Qed.
Lemma halves p : okp p -> rp_get8hi p = value p / 256 /\ rp_get8lo p = value p mod 256.
Proof. destruct p as [a b]; unfold okp, value, byte, rp_get8hi, rp_get8lo; cbn [byte0 byte1]; lia. Qed.

Lemma step_refines o p : okp p -> op_ok o ->
  exists q, rp_step o p = Some (q, snd (spec_step o (value p))) /\ okp q /\ value q = fst (spec_step o (value p)).
Proof.
  intros Hp Ho. pose proof (value_word p Hp) as Hw. destruct (halves p Hp) as [Hh Hl].
  unfold rp_get8hi, rp_get8lo in *.
  destruct o; cbn [op_ok spec_step rp_step fst snd] in *.
  - exists (rp_set16 v p). split; [reflexivity|]. apply to_le_ok; exact Ho.
  - exists (rp_set8hi v p). split; [reflexivity|]. unfold rp_set8hi, okp, value, byte in *; cbn [byte0 byte1] in *; lia.
  - exists (rp_set8lo v p). split; [reflexivity|]. unfold rp_set8lo, okp, value, byte in *; cbn [byte0 byte1] in *; lia.
  - exists (rp_set hi lo p). split; [reflexivity|]. unfold rp_set, okp, value, byte in *; cbn [byte0 byte1] in *; lia.
  - exists (rp_inc16 p). split; [reflexivity|]. unfold rp_inc16, rp_set16. rewrite get16_value. unfold u16.
    assert (E : (value p + 1) mod 65536 = if value p =? 65535 then 0 else value p + 1)
      by (unfold word in Hw; destruct (Z.eqb_spec (value p) 65535); lia).
    rewrite E. apply to_le_ok. unfold word in *; destruct (Z.eqb_spec (value p) 65535); lia.
  - exists (rp_add16 v p). split; [reflexivity|]. unfold rp_add16, rp_set16. rewrite get16_value. unfold u16.
    assert (E : (value p + v) mod 65536 = if value p + v <? 65536 then value p + v else value p + v - 65536)
      by (unfold word in *; destruct (Z.ltb_spec (value p + v) 65536); lia).
    rewrite E. apply to_le_ok. unfold word in *; destruct (Z.ltb_spec (value p + v) 65536); lia.
  - exists (rp_dec16 p). split; [reflexivity|]. unfold rp_dec16, rp_set16. rewrite get16_value. unfold u16.
    assert (E : (value p - 1) mod 65536 = if value p =? 0 then 65535 else value p - 1)
      by (unfold word in *; destruct (Z.eqb_spec (value p) 0); lia).
    rewrite E. apply to_le_ok. unfold word in *; destruct (Z.eqb_spec (value p) 0); lia.
  - unfold rp_dec16_is_zero, rp_set16. rewrite get16_value. unfold u16.
    assert (E : (value p - 1) mod 65536 = if value p =? 0 then 65535 else value p - 1)
      by (unfold word in *; destruct (Z.eqb_spec (value p) 0); lia).
    rewrite E. eexists. split; [f_equal; f_equal; f_equal|].
    + unfold word in *. destruct (Z.eqb_spec (value p) 0), (Z.eqb_spec (value p) 1); lia.
    + apply to_le_ok. unfold word in *; destruct (Z.eqb_spec (value p) 0); lia.
  - destruct (Ho _ Hw) as [H1 H2]. exists (rp_op16 op p). split; [reflexivity|]. unfold rp_op16. rewrite get16_value.
    destruct (op (value p)) as [h l]; cbn [fst snd] in *. unfold rp_set, okp, value; cbn [byte0 byte1]. tauto.
  - exists (RP (byte0 p) (op (byte1 p))). split; [reflexivity|]. rewrite <- Hh. destruct Hp as [P0 P1].
    specialize (Ho _ P1). unfold okp, value, byte in *; cbn [byte0 byte1] in *. rewrite <- Hl. tauto.
  - exists (RP (op (byte0 p)) (byte1 p)). split; [reflexivity|]. rewrite <- Hl. destruct Hp as [P0 P1].
    specialize (Ho _ P0). unfold okp, value, byte in *; cbn [byte0 byte1] in *. lia.
Qed.
Lemma steps_refine : forall l p, okp p -> Forall op_ok l ->
  exists q, rp_steps l p = Some (q, snd (spec_steps l (value p))) /\ okp q /\ value q = fst (spec_steps l (value p)).
Proof.
  induction l as [|o l IH]; intros p Hp Hl.
  - exists p. cbn. auto.
  - inversion Hl as [|? ? Ho Hl']; subst. destruct (step_refines o p Hp Ho) as (q & E & Hq & Ev).
    destruct (IH q Hq Hl') as (q' & E' & Hq' & Ev'). cbn [rp_steps spec_steps]. rewrite E.
    destruct (spec_step o (value p)) as [w x]; cbn [fst snd] in *. subst w.
    rewrite E'. destruct (spec_steps l (value q)) as [w xs]; cbn [fst snd option_map] in *. eauto.
Qed.
Lemma reads p : okp p ->
  rp_get16 p = value p /\ rp_get8hi p = value p / 256 /\ rp_get8lo p = value p mod 256 /\
  rp_get p = (value p / 256, value p mod 256).
Proof.
  intros H. destruct (halves p H) as [E1 E2]. split; [apply get16_value|]. split; [exact E1|]. split; [exact E2|].
  unfold rp_get, rp_get8hi, rp_get8lo in *. congruence.
Qed.
Lemma froms :
  (forall v, word v -> okp (rp_from_u16 v) /\ value (rp_from_u16 v) = v) /\
  (forall v, -32768 <= v < 32768 -> okp (rp_from_i16 v) /\ value (rp_from_i16 v) = if v <? 0 then v + 65536 else v) /\
  (forall lo hi, byte lo -> byte hi -> okp (rp_from_array lo hi) /\ value (rp_from_array lo hi) = 256 * hi + lo) /\
  (forall lo hi, byte lo -> byte hi -> okp (rp_from_tuple (hi, lo)) /\ value (rp_from_tuple (hi, lo)) = 256 * hi + lo).
Proof.
  split; [exact to_le_ok|]. split; [|split].
  - intros v H. unfold rp_from_i16, i16_to_le_bytes, u16.
    assert (E : v mod 65536 = if v <? 0 then v + 65536 else v) by (destruct (Z.ltb_spec v 0); lia).
    rewrite E. apply to_le_ok. unfold word; destruct (Z.ltb_spec v 0); lia.
  - intros lo hi H1 H2. unfold okp, value, rp_from_array; cbn [byte0 byte1]. auto.
  - intros lo hi H1 H2. unfold okp, value, rp_from_tuple; cbn [byte0 byte1]. auto.
Qed.
(** The functions of [Base.v] used by the CPU model. *)
Lemma model_pairs p : okp p ->
  hi8 (value p) = rp_get8hi p /\ lo8 (value p) = rp_get8lo p /\
  (forall v, byte v -> set8hi (value p) v = value (rp_set8hi v p) /\ set8lo (value p) v = value (rp_set8lo v p)) /\
  (forall h l, mk16 h l = value (rp_set h l p)).
Proof.
  intros H. destruct (halves p H) as [E1 E2]. unfold hi8, lo8. split; [auto|]. split; [auto|]. split.
  - intros v Hv. unfold set8hi, set8lo, mk16, hi8, lo8. rewrite <- E1, <- E2.
    unfold value, rp_set8hi, rp_set8lo, rp_get8hi, rp_get8lo; cbn [byte0 byte1]. auto.
  - intros h l. reflexivity.
Qed.

(** The struct. *)
Lemma zput_ok {Q} n p (z : zbytes Q) : okz z -> okp p -> okz (zput n p z).
Proof. intros Hz Hp m. unfold zput; cbn [zpair]. destruct (peqb m n); auto. Qed.
Lemma ptr_in_bounds g px : snd (reg8_ptr g px) = 0 \/ snd (reg8_ptr g px) = 1.
Proof. destruct g, px as [[]|]; cbn; auto. Qed.
Lemma get_reg_refines {Q} g px (z : zbytes Q) : okz z -> z_get_reg g px z = get_reg g px (cpu_of z).
Proof.
  intros H. pose proof (fun n => proj1 (model_pairs (zpair z n) (H n))) as Eh.
  pose proof (fun n => proj1 (proj2 (model_pairs (zpair z n) (H n)))) as El.
  destruct g, px as [[]|]; cbn; rewrite ?Eh, ?El; reflexivity.
Qed.
Lemma hi_lo_value p v : okp p ->
  set8hi (value p) v = 256 * v + byte0 p /\ set8lo (value p) v = 256 * byte1 p + v.
Proof.
  intros H. destruct (halves p H) as [E1 E2]. unfold set8hi, set8lo, mk16, hi8, lo8. rewrite <- E1, <- E2. auto.
Qed.
Lemma set_reg_refines {Q} g px v (z : zbytes Q) : okz z -> byte v ->
  exists z', z_set_reg g px v z = Some z' /\ okz z' /\ cpu_of z' = set_reg g px v (cpu_of z).
Proof.
  intros H Hv.
  assert (A : forall n off, off = 0 \/ off = 1 -> exists q, assign (zpair z n) off v = Some q /\ okp q).
  { intros n off [->| ->]; cbn; eexists; (split; [reflexivity|]); destruct (H n); split; cbn; auto. }
  unfold z_set_reg. destruct (reg8_ptr g px) as [n off] eqn:Ep.
  destruct (A n off) as (q & Eq & Hq). { generalize (ptr_in_bounds g px). rewrite Ep. auto. }
  rewrite Eq. cbn [option_map]. eexists. split; [reflexivity|]. split; [apply zput_ok; auto|].
  pose proof (fun n => proj1 (hi_lo_value (zpair z n) v (H n))) as Eh.
  pose proof (fun n => proj2 (hi_lo_value (zpair z n) v (H n))) as El.
  destruct g, px as [[]|]; cbn [reg8_ptr] in Ep; injection Ep as <- <-; cbn in Eq; injection Eq as <-;
    lazy beta iota zeta delta [cpu_of zput set_reg set_bc set_de set_hl set_ix set_iy set_af zpair zrest peqb
      af bc de hl ix iy af_alt bc_alt de_alt hl_alt pc sp memptr ir r im iff1 iff2 halt prefix last_ei flavour];
    rewrite ?Eh, ?El; reflexivity.
Qed.
Lemma apply_reg8_refines {Q} g px (op : Z -> Z) (z : zbytes Q) : okz z -> (forall b, byte b -> byte (op b)) ->
  exists z', z_apply_reg8 g px op z = Some z' /\ okz z' /\
    cpu_of z' = set_reg g px (op (get_reg g px (cpu_of z))) (cpu_of z).
Proof.
  intros H Hop.
  assert (E : z_apply_reg8 g px op z = z_set_reg g px (op (z_get_reg g px z)) z)
    by (destruct g, px as [[]|]; reflexivity).
  rewrite E, (get_reg_refines g px z H).
  assert (B : byte (op (get_reg g px (cpu_of z)))).
  { apply Hop. rewrite <- get_reg_refines by exact H. destruct g, px as [[]|]; cbn; apply H. }
  destruct (set_reg_refines g px _ z H B) as (z' & E1 & H1 & E2). exists z'. auto.
Qed.
(** Nothing else is touched. *)
Lemma set_reg_frame {Q} g px v (z z' : zbytes Q) : z_set_reg g px v z = Some z' ->
  zrest z' = zrest z /\ (forall n, n <> fst (reg8_ptr g px) -> zpair z' n = zpair z n) /\
  (forall off, off <> snd (reg8_ptr g px) ->
     deref (zpair z' (fst (reg8_ptr g px))) off = deref (zpair z (fst (reg8_ptr g px))) off).
Proof.
  unfold z_set_reg. destruct (reg8_ptr g px) as [n off] eqn:Ep.
  generalize (ptr_in_bounds g px). rewrite Ep. cbn [fst snd]. intros Hb.
  assert (R : forall a, peqb a a = true) by (intros []; reflexivity).
  assert (N : forall a b, a <> b -> peqb a b = false) by (intros [] []; try reflexivity; congruence).
  intros E. destruct Hb as [->| ->]; cbn in E; injection E as <-; (split; [reflexivity|]); (split;
    [intros m Hm; cbn; rewrite N; auto|]); intros o Ho; cbn; rewrite R; unfold deref; cbn [byte0 byte1];
    destruct (Z.eqb_spec o 0), (Z.eqb_spec o 1); try reflexivity; congruence.
Qed.
