(** 16-bit arithmetic of ops.rs against [SpecAlu.v]. *)
From Coq Require Import ZArith Bool List Lia ZifyBool.
From Verif Require Import Base Flags Ops SpecAlu AluProofs.
Import ListNotations.
Open Scope Z_scope.
Ltac Zify.zify_post_hook ::= Z.div_mod_to_equations.

Lemma land65536 x : negb (Z.land x 65536 =? 0) = ((x / 65536) mod 2 =? 1).
Proof. change 65536 with (2 ^ 16). rewrite land_pow2, negb_involutive, testbit_divmod by lia. reflexivity. Qed.
Lemma land4096 x : negb (Z.land x H16 =? 0) = ((x / 4096) mod 2 =? 1).
Proof. change H16 with (2 ^ 12). rewrite land_pow2, negb_involutive, testbit_divmod by lia. reflexivity. Qed.
Lemma land4095 x : Z.land x HMASK16 = x mod 4096.
Proof. change HMASK16 with (Z.ones 12). now rewrite Z.land_ones by lia. Qed.
Lemma h_add16 x y : word x -> word y -> mask_nh_add16 x y = fif (4096 <=? x mod 4096 + y mod 4096) FH.
Proof.
  unfold mask_nh_add16, word, u16. intros Hx Hy. rewrite land4096, !land4095. f_equal. lia.
Qed.
Lemma h_adc16 x y c : word x -> word y ->
  mask_nh_adc16 x y c = fif (4096 <=? x mod 4096 + y mod 4096 + bz c) FH.
Proof.
  unfold mask_nh_adc16, word, u16. intros Hx Hy. cbv zeta. rewrite !land4096, !land4095. f_equal.
  unfold b2z, bz. destruct c; lia.
Qed.
Lemma h_sbc16 x y c : word x -> word y ->
  mask_nh_sbc16 x y c = Z.lor (fif (x mod 4096 - y mod 4096 - bz c <? 0) FH) FN.
Proof.
  unfold mask_nh_sbc16, word, u16. intros Hx Hy. cbv zeta. rewrite !land4096, !land4095.
  match goal with |- (if ?b then _ else _) = Z.lor (fif ?b' _) _ => replace b' with b end.
  - destruct (_ || _); reflexivity.
  - unfold b2z, bz. destruct c; lia.
Qed.

Lemma i16_range x : word x -> -32768 <= i16 x <= 32767.
Proof. unfold word, i16. intros H. destruct (x <? 32768) eqn:E; lia. Qed.
(** Overflow of a two-step wrapping sum is the overflow of the sum. *)
Lemma ovf16 s c : -65536 <= s <= 65535 -> -1 <= c <= 1 ->
  xorb (negb (fits_i16 s)) (negb (fits_i16 (wrap_i16 s + c))) = overflows16 (s + c).
Proof.
  intros Hs Hc. rewrite xorb_neqb. unfold wrap_i16, i16, u16.
  destruct (s mod 65536 <? 32768) eqn:E; unfold overflows16, fits_i16.
  - destruct (_ || (32767 <? _)) eqn:E2; destruct (_ && (_ <=? 32767)) eqn:E3;
      destruct (_ && (s mod 65536 + c <=? _)) eqn:E4; cbn; try reflexivity; lia.
  - destruct (_ || (32767 <? _)) eqn:E2; destruct (_ && (s <=? 32767)) eqn:E3;
      destruct (_ && (s mod 65536 - 65536 + c <=? _)) eqn:E4; cbn; try reflexivity; lia.
Qed.

Lemma hi_bit r n : word r -> 0 <= n -> bitn (hi8 r) n = bitn r (n + 8).
Proof.
  intros _ Hn. unfold bitn, hi8. change 256 with (2 ^ 8). rewrite <- Z.shiftr_div_pow2 by lia.
  now rewrite Z.shiftr_spec.
Qed.
Lemma hi_byte r : word r -> byte (hi8 r).
Proof. unfold word, byte, hi8. lia. Qed.

Lemma add16_ok x y f : word x -> word y -> byte f -> add16 x y f = s_add16 x y f.
Proof.
  intros Hx Hy Hf. unfold add16, s_add16. cbv zeta. f_equal.
  assert (Hr : word (u16 (x + y))) by (unfold word, u16; lia).
  rewrite h_add16, xy_byte by auto using hi_byte. rewrite !hi_bit by (auto; lia).
  change (u16 (x + y)) with ((x + y) mod 65536).
  change (5 + 8) with 13. change (3 + 8) with 11.
  generalize (4096 <=? x mod 4096 + y mod 4096) as h, (bitn ((x + y) mod 65536) 13) as b13,
             (bitn ((x + y) mod 65536) 11) as b11, (65536 <=? x + y) as c.
  intros h b13 b11 c. apply Z.eqb_eq.
  revert f Hf. destruct h, b13, b11, c;
  match goal with |- forall f, byte f -> (@?P f) = true => apply (all1_spec P) end;
  vm_compute; reflexivity.
Qed.

Lemma adc16_ok x y f : word x -> word y -> byte f -> adc16 x y f = s_adc16 x y (Cf f).
Proof.
  intros Hx Hy Hf. unfold adc16, s_adc16. cbv zeta. rewrite cf_Cf by exact Hf.
  generalize (Cf f) as c. intros c.
  assert (E : (x + y + b2z c) mod 2 ^ 32 = x + y + bz c).
  { change (2 ^ 32) with 4294967296. unfold word, b2z, bz in *. destruct c; lia. }
  rewrite E.
  assert (Hr : word (u16 (x + y + bz c))) by (unfold word, u16; lia).
  rewrite h_adc16, sxy_byte by auto using hi_byte. rewrite !hi_bit by (auto; lia).
  rewrite land65536.
  replace (((x + y + bz c) / 65536) mod 2 =? 1) with (65536 <=? x + y + bz c)
    by (unfold word, bz in *; destruct c; lia).
  change (u16 (x + y + bz c)) with ((x + y + bz c) mod 65536).
  f_equal.
  replace (xorb (negb (fits_i16 (i16 x + i16 y)))
     (negb (fits_i16 (wrap_i16 (i16 x + i16 y) + b2z c))))
    with (overflows16 (signed16 x + signed16 y + bz c)).
  2:{ pose proof (i16_range x Hx). pose proof (i16_range y Hy).
      rewrite ovf16; [reflexivity|lia|destruct c; cbn; lia]. }
  change (7 + 8) with 15. change (5 + 8) with 13. change (3 + 8) with 11.
  generalize (overflows16 (signed16 x + signed16 y + bz c)) as v,
             (4096 <=? x mod 4096 + y mod 4096 + bz c) as h,
             (bitn ((x + y + bz c) mod 65536) 15) as b15,
             (bitn ((x + y + bz c) mod 65536) 13) as b13,
             (bitn ((x + y + bz c) mod 65536) 11) as b11,
             ((x + y + bz c) mod 65536 =? 0) as z, (65536 <=? x + y + bz c) as cc.
  intros [] [] [] [] [] [] []; reflexivity.
Qed.

Lemma sbc16_ok x y f : word x -> word y -> byte f -> sbc16 x y f = s_sbc16 x y (Cf f).
Proof.
  intros Hx Hy Hf. unfold sbc16, s_sbc16. cbv zeta. rewrite cf_Cf by exact Hf.
  generalize (Cf f) as c. intros c.
  change (2 ^ 32) with 4294967296.
  assert (E : u16 ((x - y - b2z c) mod 4294967296) = (x - y - bz c) mod 65536).
  { unfold u16, word, b2z, bz in *. destruct c; lia. }
  rewrite E.
  assert (Hr : word ((x - y - bz c) mod 65536)) by (unfold word; lia).
  rewrite h_sbc16, sxy_byte by auto using hi_byte. rewrite !hi_bit by (auto; lia).
  rewrite land65536.
  replace (((x - y - b2z c) mod 4294967296 / 65536) mod 2 =? 1) with (x - y - bz c <? 0)
    by (unfold word, bz, b2z in *; destruct c; lia).
  f_equal.
  replace (xorb (negb (fits_i16 (i16 x - i16 y)))
     (negb (fits_i16 (wrap_i16 (i16 x - i16 y) - b2z c))))
    with (overflows16 (signed16 x - signed16 y - bz c)).
  2:{ pose proof (i16_range x Hx). pose proof (i16_range y Hy).
      rewrite <- (Z.add_opp_r (wrap_i16 _)). rewrite ovf16; [reflexivity|lia|destruct c; cbn; lia]. }
  change (7 + 8) with 15. change (5 + 8) with 13. change (3 + 8) with 11.
  generalize (overflows16 (signed16 x - signed16 y - bz c)) as v,
             (x mod 4096 - y mod 4096 - bz c <? 0) as h,
             (bitn ((x - y - bz c) mod 65536) 15) as b15,
             (bitn ((x - y - bz c) mod 65536) 13) as b13,
             (bitn ((x - y - bz c) mod 65536) 11) as b11,
             ((x - y - bz c) mod 65536 =? 0) as z, (x - y - bz c <? 0) as cc.
  intros [] [] [] [] [] [] []; reflexivity.
Qed.

(** ** Decimal arithmetic *)
Lemma flagbyte_C s z y h x p n c : Cf (flagbyte s z y h x p n c) = c.
Proof. destruct s, z, y, h, x, p, n, c; reflexivity. Qed.
Lemma flagbyte_H s z y h x p n c : Hf (flagbyte s z y h x p n c) = h.
Proof. destruct s, z, y, h, x, p, n, c; reflexivity. Qed.
Lemma flagbyte_N s z y h x p n c : Nf (flagbyte s z y h x p n c) = n.
Proof. destruct s, z, y, h, x, p, n, c; reflexivity. Qed.
Lemma is_bcd_byte a : is_bcd a = true -> byte a.
Proof. unfold is_bcd, byte. lia. Qed.
Lemma bcd_adc a b f : is_bcd a = true -> is_bcd b = true -> byte f ->
  exists fl, daa (fst (adc a b f)) (snd (adc a b f)) =
    Some (bcd_of ((bcd_val a + bcd_val b + bz (Cf f)) mod 100), fl) /\
    Cf fl = (100 <=? bcd_val a + bcd_val b + bz (Cf f)).
Proof.
  intros Ha Hb Hff. rewrite adc_ok by auto using is_bcd_byte.
  pose proof (bz_range (Cf f)) as Hc. revert Hc. unfold s_add. generalize (Cf f) as c0. intros c0 Hc.
  unfold flags_szxy. cbn [fst snd].
  rewrite daa_ok by (try apply flagbyte_byte; unfold byte; lia).
  unfold s_daa. rewrite flagbyte_C, flagbyte_H, flagbyte_N. cbv zeta.
  eexists. split; [|unfold flags_szxy; rewrite flagbyte_C].
  - apply f_equal. apply f_equal2; [|reflexivity]. revert Hc. generalize (bz c0) as c. intros c Hc.
    unfold is_bcd, bcd_of, bcd_val in *.
    assert (exists ah al, a = 16 * ah + al /\ 0 <= al <= 9 /\ 0 <= ah <= 9) as (ah & al & -> & ? & ?)
      by (exists (a / 16), (a mod 16); lia).
    assert (exists bh bl, b = 16 * bh + bl /\ 0 <= bl <= 9 /\ 0 <= bh <= 9) as (bh & bl & -> & ? & ?)
      by (exists (b / 16), (b mod 16); lia).
    clear Ha Hb.
    replace ((16 * ah + al) / 16) with ah by lia. replace ((16 * bh + bl) / 16) with bh by lia.
    replace ((16 * ah + al) mod 16) with al by lia. replace ((16 * bh + bl) mod 16) with bl by lia.
    destruct ((16 <=? _) || _) eqn:E1; destruct ((256 <=? _) || _) eqn:E2; lia.
  - revert Hc. generalize (bz c0) as c. intros c Hc. unfold is_bcd, bcd_val in *. lia.
Qed.
Lemma bcd_sbc a b f : is_bcd a = true -> is_bcd b = true -> byte f ->
  exists fl, daa (fst (sbc a b f)) (snd (sbc a b f)) =
    Some (bcd_of ((bcd_val a - bcd_val b - bz (Cf f)) mod 100), fl) /\
    Cf fl = (bcd_val a - bcd_val b - bz (Cf f) <? 0).
Proof.
  intros Ha Hb Hff. rewrite sbc_ok by auto using is_bcd_byte.
  pose proof (bz_range (Cf f)) as Hc. revert Hc. unfold s_sub. generalize (Cf f) as c0. intros c0 Hc.
  unfold flags_szxy. cbn [fst snd].
  rewrite daa_ok by (try apply flagbyte_byte; unfold byte; lia).
  unfold s_daa. rewrite flagbyte_C, flagbyte_H, flagbyte_N. cbv zeta.
  eexists. split; [|unfold flags_szxy; rewrite flagbyte_C].
  - apply f_equal. apply f_equal2; [|reflexivity]. revert Hc. generalize (bz c0) as c. intros c Hc.
    unfold is_bcd, bcd_of, bcd_val in *.
    assert (exists ah al, a = 16 * ah + al /\ 0 <= al <= 9 /\ 0 <= ah <= 9) as (ah & al & -> & ? & ?)
      by (exists (a / 16), (a mod 16); lia).
    assert (exists bh bl, b = 16 * bh + bl /\ 0 <= bl <= 9 /\ 0 <= bh <= 9) as (bh & bl & -> & ? & ?)
      by (exists (b / 16), (b mod 16); lia).
    clear Ha Hb.
    replace ((16 * ah + al) / 16) with ah by lia. replace ((16 * bh + bl) / 16) with bh by lia.
    replace ((16 * ah + al) mod 16) with al by lia. replace ((16 * bh + bl) mod 16) with bl by lia.
    destruct ((_ <? 0) || (9 <? _)) eqn:E1; destruct ((_ <? 0) || (153 <? _)) eqn:E2; lia.
  - revert Hc. generalize (bz c0) as c. intros c Hc. unfold is_bcd, bcd_val in *. lia.
Qed.
(** ADD/SUB are ADC/SBC without carry. *)
Lemma add_adc a b f : byte a -> byte b -> add a b f = adc a b 0.
Proof. intros. rewrite add_ok, adc_ok by (auto; unfold byte; lia). reflexivity. Qed.
Lemma sub_sbc a b f : byte a -> byte b -> sub a b f = sbc a b 0.
Proof. intros. rewrite sub_ok, sbc_ok by (auto; unfold byte; lia). reflexivity. Qed.

(** ** RLD and RRD *)
Lemma rld_rrd a m f : byte a -> byte m -> byte f ->
  let x := fst (rld a m f) in forall f', byte f' -> fst (rrd (fst x) (snd x) f') = (a, m).
Proof.
  intros Ha Hm Hf x f' Hf'. subst x. rewrite rld_ok by assumption.
  unfold s_rld; cbn [fst snd].
  rewrite rrd_ok by (unfold byte in *; lia || assumption).
  unfold s_rrd; cbn [fst snd]. unfold byte in *. f_equal; lia.
Qed.
Lemma rrd_rld a m f : byte a -> byte m -> byte f ->
  let x := fst (rrd a m f) in forall f', byte f' -> fst (rld (fst x) (snd x) f') = (a, m).
Proof.
  intros Ha Hm Hf x f' Hf'. subst x. rewrite rrd_ok by assumption.
  unfold s_rrd; cbn [fst snd].
  rewrite rld_ok by (unfold byte in *; lia || assumption).
  unfold s_rld; cbn [fst snd]. unfold byte in *. f_equal; lia.
Qed.
