(** Proofs that the model of ops.rs meets [SpecAlu.v].

    Enumerations are kept to at most a few thousand cases (one byte, or one byte and a few flags):
    every boolean ingredient of a flag byte is first characterised on its own. *)
From Coq Require Import ZArith Bool List Lia ZifyBool.
From Verif Require Import Base Flags Ops SpecAlu.
Import ListNotations.
Open Scope Z_scope.
Ltac Zify.zify_post_hook ::= Z.div_mod_to_equations.

(** ** Complete enumeration of bytes *)
Definition zrange (n : nat) : list Z := map Z.of_nat (seq 0 n).
Definition bytes : list Z := Eval vm_compute in zrange 256.
Lemma zrange_spec n x : In x (zrange n) <-> 0 <= x < Z.of_nat n.
Proof.
  unfold zrange. rewrite in_map_iff. split.
  - intros (k & <- & H). apply in_seq in H. lia.
  - intros H. exists (Z.to_nat x). split; [lia|]. apply in_seq. lia.
Qed.
Lemma bytes_eq : bytes = zrange 256.
Proof. vm_compute. reflexivity. Qed.
Lemma bytes_spec x : byte x -> In x bytes.
Proof. intros H. rewrite bytes_eq. apply zrange_spec. unfold byte in H. lia. Qed.

Definition all_in (l : list Z) (P : Z -> bool) : bool := forallb P l.
Lemma all_in_spec l P : all_in l P = true -> forall a, In a l -> P a = true.
Proof. intros H a Ha. exact (proj1 (forallb_forall _ _) H a Ha). Qed.
Definition all1 (P : Z -> bool) : bool := all_in bytes P.
Lemma all1_spec P : all1 P = true -> forall a, byte a -> P a = true.
Proof. intros H a Ha. exact (all_in_spec bytes P H a (bytes_spec a Ha)). Qed.
Definition bitnums : list Z := [0;1;2;3;4;5;6;7].
Lemma bitnums_spec n : 0 <= n < 8 -> In n bitnums.
Proof. intros H. unfold bitnums. cbn. lia. Qed.
Definition allbit (P : Z -> Z -> bool) : bool := all1 (fun v => all_in bitnums (fun n => P v n)).
Lemma allbit_spec P : allbit P = true -> forall v n, byte v -> 0 <= n < 8 -> P v n = true.
Proof.
  intros H v n Hv Hn. pose proof (all1_spec _ H v Hv) as H1. cbv beta in H1.
  exact (all_in_spec _ _ H1 n (bitnums_spec n Hn)).
Qed.
(** [sweep]: close [forall x, byte x -> f x = g x] (or two booleans) by enumeration. *)
Ltac sweepz :=
  let x := fresh "x" in let H := fresh in
  intros x H; apply Z.eqb_eq; revert x H;
  match goal with |- forall x, byte x -> (@?P x) = true => apply (all1_spec P) end;
  vm_compute; reflexivity.
Ltac sweepb :=
  let x := fresh "x" in let H := fresh in
  intros x H; apply eqb_prop; revert x H;
  match goal with |- forall x, byte x -> (@?P x) = true => apply (all1_spec P) end;
  vm_compute; reflexivity.
Ltac sweepz8 :=
  let x := fresh "x" in let n := fresh "n" in let H := fresh in let Hn := fresh in
  intros x n H Hn; apply Z.eqb_eq; revert x n H Hn;
  match goal with |- forall x n, byte x -> 0 <= n < 8 -> (@?P x n) = true => apply (allbit_spec P) end;
  vm_compute; reflexivity.
Ltac sweepb8 :=
  let x := fresh "x" in let n := fresh "n" in let H := fresh in let Hn := fresh in
  intros x n H Hn; apply eqb_prop; revert x n H Hn;
  match goal with |- forall x n, byte x -> 0 <= n < 8 -> (@?P x n) = true => apply (allbit_spec P) end;
  vm_compute; reflexivity.

(** ** Flag bytes *)
Lemma flagbyte_byte s z y h x p n c : byte (flagbyte s z y h x p n c).
Proof. unfold flagbyte, byte, bz. destruct s, z, y, h, x, p, n, c; cbn; lia. Qed.
Lemma cf_Cf : forall f, byte f -> cf f = Cf f.  Proof. sweepb. Qed.
Lemma hf_Hf : forall f, byte f -> hf f = Hf f.  Proof. sweepb. Qed.
Lemma nf_Nf : forall f, byte f -> nf f = Nf f.  Proof. sweepb. Qed.
Lemma zf_Zf : forall f, byte f -> zf f = Zf f.  Proof. sweepb. Qed.
Lemma sf_Sf : forall f, byte f -> sf f = Sf f.  Proof. sweepb. Qed.
Lemma pvf_Pf : forall f, byte f -> pvf f = Pf f.  Proof. sweepb. Qed.
Lemma land_FC : forall f, byte f -> Z.land f FC = b2z (Cf f).  Proof. sweepz. Qed.
Lemma cf_b2z b : cf (b2z b) = b.
Proof. destruct b; reflexivity. Qed.
Lemma sxy_byte : forall h, byte h ->
  mask_sxy h = flagbyte (bitn h 7) false (bitn h 5) false (bitn h 3) false false false.
Proof. sweepz. Qed.
Lemma xy_byte : forall h, byte h ->
  mask_xy h = flagbyte false false (bitn h 5) false (bitn h 3) false false false.
Proof. sweepz. Qed.
Lemma sign_byte : forall h, byte h -> mask_sign h = flagbyte (bitn h 7) false false false false false false false.
Proof. sweepz. Qed.
Lemma blockxy_byte : forall h, byte h ->
  mask_block_op_xy h = flagbyte false false (bitn h 1) false (bitn h 3) false false false.
Proof. sweepz. Qed.
Lemma parity_byte : forall h, byte h -> (Z.land (count_ones h) 1 =? 0) = evenparity h.
Proof. sweepb. Qed.
Lemma u8_byte x : byte (u8 x).
Proof. unfold byte, u8. lia. Qed.

(** [mask_bitops] *)
Lemma bitops_byte r h c : byte r -> mask_bitops r h c = flags_szxy r r h (evenparity r) false c.
Proof.
  intros Hr. unfold mask_bitops, flags_szxy. rewrite sxy_byte, parity_byte by exact Hr.
  generalize (bitn r 7) (bitn r 5) (bitn r 3) (r =? 0) (evenparity r).
  intros [] [] [] [] []; destruct h, c; reflexivity.
Qed.

(** Half carries *)
Lemma land15 x : Z.land x HMASK = x mod 16.
Proof. change HMASK with (Z.ones 4). now rewrite Z.land_ones by lia. Qed.
Lemma land_pow2 x n : 0 <= n -> (Z.land x (2 ^ n) =? 0) = negb (Z.testbit x n).
Proof.
  intros Hn. destruct (Z.testbit x n) eqn:E; cbn [negb].
  - apply Z.eqb_neq. intros H. assert (H' : Z.testbit (Z.land x (2^n)) n = false) by (rewrite H; apply Z.bits_0).
    rewrite Z.land_spec, E, Z.pow2_bits_true in H' by lia. discriminate.
  - apply Z.eqb_eq. apply Z.bits_inj'. intros k Hk. rewrite Z.land_spec, Z.bits_0, Z.pow2_bits_eqb by lia.
    destruct (n =? k) eqn:E'; [|apply andb_false_r]. apply Z.eqb_eq in E'. subst. rewrite E. reflexivity.
Qed.
Lemma testbit_divmod x n : 0 <= n -> Z.testbit x n = ((x / 2 ^ n) mod 2 =? 1).
Proof. intros Hn. rewrite <- Z.testbit_spec' by exact Hn. now destruct (Z.testbit x n). Qed.
Lemma landFH x : negb (Z.land x FH =? 0) = ((x / 16) mod 2 =? 1).
Proof. change FH with (2 ^ 4). rewrite land_pow2, negb_involutive, testbit_divmod by lia. reflexivity. Qed.
Lemma land256 x : negb (Z.land x 256 =? 0) = ((x / 256) mod 2 =? 1).
Proof. change 256 with (2 ^ 8). rewrite land_pow2, negb_involutive, testbit_divmod by lia. reflexivity. Qed.
Lemma h_add x y : byte x -> byte y -> mask_nh_add x y = fif (16 <=? x mod 16 + y mod 16) FH.
Proof. unfold mask_nh_add, byte, u8. intros Hx Hy. rewrite landFH, !land15. f_equal. lia. Qed.
Lemma h_adc x y c : byte x -> byte y -> mask_nh_adc x y c = fif (16 <=? x mod 16 + y mod 16 + bz c) FH.
Proof.
  unfold mask_nh_adc, byte, u8. intros Hx Hy. cbv zeta. rewrite !landFH, !land15. f_equal.
  unfold b2z, bz. destruct c; lia.
Qed.
Lemma h_sub x y : byte x -> byte y -> mask_nh_sub x y = Z.lor (fif (x mod 16 - y mod 16 <? 0) FH) FN.
Proof.
  unfold mask_nh_sub, byte, u8. intros Hx Hy. rewrite !landFH, !land15.
  match goal with |- (if ?b then _ else _) = Z.lor (fif ?b' _) _ => replace b' with b by lia end.
  destruct (_ =? 1); reflexivity.
Qed.
Lemma h_sbc x y c : byte x -> byte y ->
  mask_nh_sbc x y c = Z.lor (fif (x mod 16 - y mod 16 - bz c <? 0) FH) FN.
Proof.
  unfold mask_nh_sbc, byte, u8. intros Hx Hy. cbv zeta. rewrite !landFH, !land15.
  match goal with |- (if ?b then _ else _) = Z.lor (fif ?b' _) _ => replace b' with b end.
  - destruct (_ || _); reflexivity.
  - unfold b2z, bz. destruct c; lia.
Qed.
(** Overflow of a two-step wrapping sum is the overflow of the sum. *)
Lemma xorb_neqb (a b : bool) : xorb a b = negb (Bool.eqb a b).
Proof. now destruct a, b. Qed.
Lemma i8_range x : byte x -> -128 <= i8 x <= 127.
Proof. unfold byte, i8. intros H. destruct (x <? 128) eqn:E; lia. Qed.
Lemma ovf8 s c : -256 <= s <= 255 -> -1 <= c <= 1 ->
  xorb (negb (fits_i8 s)) (negb (fits_i8 (wrap_i8 s + c))) = overflows8 (s + c).
Proof.
  intros Hs Hc. rewrite xorb_neqb. unfold wrap_i8, i8, u8.
  destruct (s mod 256 <? 128) eqn:E; unfold overflows8, fits_i8.
  - destruct (_ || (127 <? _)) eqn:E2; destruct (_ && (_ <=? 127)) eqn:E3;
      destruct (_ && (s mod 256 + c <=? _)) eqn:E4; cbn; try reflexivity; lia.
  - destruct (_ || (127 <? _)) eqn:E2; destruct (_ && (s <=? 127)) eqn:E3;
      destruct (_ && (s mod 256 - 256 + c <=? _)) eqn:E4; cbn; try reflexivity; lia.
Qed.
Lemma fits8 x : negb (fits_i8 x) = overflows8 x.
Proof. unfold fits_i8, overflows8. lia. Qed.

(** Assemble a flag byte out of characterised parts: all remaining ingredients are booleans. *)
Ltac bools :=
  repeat match goal with
    | |- context [bitn ?x ?n] => generalize (bitn x n); intro
    | |- context [overflows8 ?x] => generalize (overflows8 x); intro
    | |- context [evenparity ?x] => generalize (evenparity x); intro
    | |- context [?x =? ?y] => generalize (x =? y); intro
    | |- context [?x <=? ?y] => generalize (x <=? y); intro
    | |- context [?x <? ?y] => generalize (x <? y); intro
  end;
  repeat match goal with b : bool |- _ => destruct b end; reflexivity.

(** ** 8-bit arithmetic *)
Lemma add_ok a v f : byte a -> byte v -> add a v f = s_add a v false.
Proof.
  intros Ha Hv. unfold add, s_add, flags_szxy. cbv zeta. cbn [bz]. rewrite !Z.add_0_r.
  rewrite h_add, sxy_byte, fits8 by auto using u8_byte. change i8 with signed8.
  change (u8 (a + v)) with ((a + v) mod 256). f_equal. unfold mask_cvz. bools.
Qed.
Lemma adc_ok a v f : byte a -> byte v -> byte f -> adc a v f = s_add a v (Cf f).
Proof.
  intros Ha Hv Hf. unfold adc, s_add, flags_szxy. cbv zeta. rewrite cf_Cf by exact Hf.
  generalize (Cf f) as c; intros c.
  pose proof (i8_range a Ha). pose proof (i8_range v Hv).
  rewrite ovf8 by (try lia; destruct c; cbn; lia).
  rewrite h_adc, sxy_byte, land256 by auto using u8_byte. change i8 with signed8.
  replace (u8 (u16 (a + v + b2z c))) with ((a + v + bz c) mod 256)
    by (unfold u8, u16, byte, b2z, bz in *; destruct c; lia).
  change (b2z c) with (bz c).
  replace ((u16 (a + v + bz c) / 256) mod 2 =? 1) with (256 <=? a + v + bz c)
    by (unfold u16, byte, bz in *; destruct c; lia).
  f_equal. unfold mask_cvz. bools.
Qed.
Lemma sub_ok a v f : byte a -> byte v -> sub a v f = s_sub a v false.
Proof.
  intros Ha Hv. unfold sub, s_sub, flags_szxy. cbv zeta. cbn [bz]. rewrite !Z.sub_0_r.
  rewrite h_sub, sxy_byte, fits8 by auto using u8_byte. change i8 with signed8.
  change (u8 (a - v)) with ((a - v) mod 256). f_equal. unfold mask_cvz. bools.
Qed.
Lemma cp_ok a v f : byte a -> byte v -> cp a v f = s_cp a v.
Proof.
  intros Ha Hv. unfold cp, s_cp, flags_szxy. cbv zeta.
  rewrite h_sub, sign_byte, xy_byte, fits8 by auto using u8_byte. change i8 with signed8.
  change (u8 (a - v)) with ((a - v) mod 256). unfold mask_cvz. bools.
Qed.
Lemma sbc_ok a v f : byte a -> byte v -> byte f -> sbc a v f = s_sub a v (Cf f).
Proof.
  intros Ha Hv Hf. unfold sbc, s_sub, flags_szxy. cbv zeta. rewrite cf_Cf by exact Hf.
  generalize (Cf f) as c; intros c.
  pose proof (i8_range a Ha). pose proof (i8_range v Hv).
  rewrite <- (Z.add_opp_r (wrap_i8 _)).
  rewrite ovf8 by (try lia; destruct c; cbn; lia). rewrite Z.add_opp_r.
  rewrite h_sbc, sxy_byte, land256 by auto using u8_byte. change i8 with signed8.
  replace (u8 (u16 (a - v - b2z c))) with ((a - v - bz c) mod 256)
    by (unfold u8, u16, byte, b2z, bz in *; destruct c; lia).
  change (b2z c) with (bz c).
  replace ((u16 (a - v - bz c) / 256) mod 2 =? 1) with (a - v - bz c <? 0)
    by (unfold u16, byte, bz in *; destruct c; lia).
  f_equal. unfold mask_cvz. bools.
Qed.

(** ** Logic *)
Lemma bz_range b : 0 <= bz b <= 1.  Proof. destruct b; cbn; lia. Qed.
Lemma of_bits_range f : byte (of_bits f).
Proof.
  unfold of_bits, byte. cbn [fold_right].
  pose proof (bz_range (f 0)). pose proof (bz_range (f 1)). pose proof (bz_range (f 2)).
  pose proof (bz_range (f 3)). pose proof (bz_range (f 4)). pose proof (bz_range (f 5)).
  pose proof (bz_range (f 6)). pose proof (bz_range (f 7)). lia.
Qed.
Lemma testbit_high x i : byte x -> 8 <= i -> Z.testbit x i = false.
Proof.
  intros Hx Hi. destruct (Z.eq_dec x 0) as [->|Hn]; [apply Z.bits_0|].
  apply Z.bits_above_log2; unfold byte in Hx; [lia|].
  assert (Z.log2 x < 8); [|lia]. apply Z.log2_lt_pow2; lia.
Qed.
Lemma bit_step b r i : 0 < i -> Z.testbit (bz b + 2 * r) i = Z.testbit r (i - 1).
Proof.
  intros Hi. replace i with (Z.succ (i - 1)) at 1 by lia.
  rewrite (Z.add_comm (bz b)). change (bz b) with (Z.b2z b). now rewrite Z.testbit_succ_r by lia.
Qed.
Lemma bit_0 b r : Z.testbit (bz b + 2 * r) 0 = b.
Proof. rewrite (Z.add_comm (bz b)). change (bz b) with (Z.b2z b). apply Z.testbit_0_r. Qed.
Lemma of_bits_testbit f i : 0 <= i < 8 -> Z.testbit (of_bits f) i = f i.
Proof.
  intros Hi. unfold of_bits. cbn [fold_right].
  assert (Hc : i = 0 \/ i = 1 \/ i = 2 \/ i = 3 \/ i = 4 \/ i = 5 \/ i = 6 \/ i = 7) by lia.
  clear Hi.
  repeat destruct Hc as [Hc|Hc]; subst i;
    repeat (rewrite bit_step by lia; cbn [Z.sub Z.add Z.opp Z.pos_sub Pos.pred_double Z.pred_double]);
    apply bit_0.
Qed.
Lemma byte_ext x y : byte x -> byte y -> (forall i, 0 <= i < 8 -> Z.testbit x i = Z.testbit y i) -> x = y.
Proof.
  intros Hx Hy H. apply Z.bits_inj'. intros i Hi. destruct (Z_lt_le_dec i 8) as [Hl|Hl].
  - apply H. lia.
  - now rewrite !testbit_high.
Qed.
Lemma land_byte x y : byte x -> byte y -> byte (Z.land x y).
Proof.
  unfold byte. intros Hx Hy. assert (0 <= Z.land x y) by (apply Z.land_nonneg; lia). split; [lia|].
  destruct (Z.eq_dec (Z.land x y) 0) as [->|Hn]; [lia|].
  apply (Z.log2_lt_pow2 _ 8); [lia|]. eapply Z.le_lt_trans; [apply Z.log2_land; lia|].
  apply Z.min_lt_iff. left. destruct (Z.eq_dec x 0) as [->|]; [reflexivity|]. apply Z.log2_lt_pow2; lia.
Qed.
Lemma log2_byte x : byte x -> Z.log2 x < 8.
Proof. intros Hx. destruct (Z.eq_dec x 0) as [->|]; [reflexivity|]. apply Z.log2_lt_pow2; unfold byte in *; lia. Qed.
Lemma lor_byte x y : byte x -> byte y -> byte (Z.lor x y).
Proof.
  intros Hx Hy. assert (0 <= Z.lor x y) by (apply Z.lor_nonneg; unfold byte in *; lia).
  split; [lia|]. destruct (Z.eq_dec (Z.lor x y) 0) as [->|Hn]; [lia|].
  apply (Z.log2_lt_pow2 _ 8); [lia|]. rewrite Z.log2_lor by (unfold byte in *; lia).
  apply Z.max_lub_lt; now apply log2_byte.
Qed.
Lemma lxor_byte x y : byte x -> byte y -> byte (Z.lxor x y).
Proof.
  intros Hx Hy. assert (0 <= Z.lxor x y) by (apply Z.lxor_nonneg; unfold byte in *; lia).
  split; [lia|]. destruct (Z.eq_dec (Z.lxor x y) 0) as [->|Hn]; [lia|].
  apply (Z.log2_lt_pow2 _ 8); [lia|]. eapply Z.le_lt_trans; [apply Z.log2_lxor; unfold byte in *; lia|].
  apply Z.max_lub_lt; now apply log2_byte.
Qed.
Lemma land_bits a v : byte a -> byte v -> Z.land a v = of_bits (fun i => bitn a i && bitn v i).
Proof.
  intros Ha Hv. apply byte_ext; [now apply land_byte|apply of_bits_range|].
  intros i Hi. rewrite of_bits_testbit by exact Hi. apply Z.land_spec.
Qed.
Lemma lor_bits a v : byte a -> byte v -> Z.lor a v = of_bits (fun i => bitn a i || bitn v i).
Proof.
  intros Ha Hv. apply byte_ext; [now apply lor_byte|apply of_bits_range|].
  intros i Hi. rewrite of_bits_testbit by exact Hi. apply Z.lor_spec.
Qed.
Lemma lxor_bits a v : byte a -> byte v -> Z.lxor a v = of_bits (fun i => xorb (bitn a i) (bitn v i)).
Proof.
  intros Ha Hv. apply byte_ext; [now apply lxor_byte|apply of_bits_range|].
  intros i Hi. rewrite of_bits_testbit by exact Hi. apply Z.lxor_spec.
Qed.
Lemma and_ok a v f : byte a -> byte v -> and8 a v f = s_and a v.
Proof.
  intros Ha Hv. unfold and8, s_and, s_logic. cbv zeta. rewrite land_bits by assumption.
  f_equal. apply bitops_byte, of_bits_range.
Qed.
Lemma or_ok a v f : byte a -> byte v -> or8 a v f = s_or a v.
Proof.
  intros Ha Hv. unfold or8, s_or, s_logic. cbv zeta. rewrite lor_bits by assumption.
  f_equal. apply bitops_byte, of_bits_range.
Qed.
Lemma xor_ok a v f : byte a -> byte v -> xor8 a v f = s_xor a v.
Proof.
  intros Ha Hv. unfold xor8, s_xor, s_logic. cbv zeta. rewrite lxor_bits by assumption.
  f_equal. apply bitops_byte, of_bits_range.
Qed.

(** ** INC, DEC, NEG, CPL, SCF, CCF *)
Lemma inc_ok v f : byte v -> byte f -> inc v f = s_inc v f.
Proof.
  intros Hv Hf. unfold inc, s_inc, flags_szxy. cbv zeta. rewrite cf_Cf by exact Hf.
  rewrite h_add, sxy_byte, fits8 by (auto using u8_byte; unfold byte; lia). change i8 with signed8.
  change (u8 (v + 1)) with ((v + 1) mod 256). change (1 mod 16) with 1. f_equal.
  replace (16 <=? v mod 16 + 1) with (v mod 16 =? 15) by lia.
  replace (overflows8 (signed8 v + 1)) with (v =? 127).
  2:{ unfold overflows8, signed8, byte in *. destruct (v <? 128) eqn:E; lia. }
  generalize (Cf f); intro. unfold mask_cvz. bools.
Qed.
Lemma dec_ok v f : byte v -> byte f -> dec v f = s_dec v f.
Proof.
  intros Hv Hf. unfold dec, s_dec, flags_szxy. cbv zeta. rewrite cf_Cf by exact Hf.
  rewrite h_sub, sxy_byte, fits8 by (auto using u8_byte; unfold byte; lia). change i8 with signed8.
  change (u8 (v - 1)) with ((v - 1) mod 256). change (1 mod 16) with 1. f_equal.
  replace (v mod 16 - 1 <? 0) with (v mod 16 =? 0) by lia.
  replace (overflows8 (signed8 v - 1)) with (v =? 128).
  2:{ unfold overflows8, signed8, byte in *. destruct (v <? 128) eqn:E; lia. }
  generalize (Cf f); intro. unfold mask_cvz. bools.
Qed.
Lemma neg_ok a f : byte a -> neg a f = s_neg a.
Proof. intros H. apply sub_ok; [unfold byte; lia|exact H]. Qed.
(** a flag byte with some flags replaced: enumerate the old flag byte *)
Ltac flagsweep := match goal with |- forall x, byte x -> _ => sweepz end.
Lemma cpl_flags y x : forall f, byte f ->
  finsert (fremove f FXY) (Z.lor (Z.lor (flagbyte false false y false x false false false) FH) FN) =
  flagbyte (Sf f) (Zf f) y true x (Pf f) true (Cf f).
Proof. destruct y, x; flagsweep. Qed.
Lemma cpl_ok a f : byte a -> byte f -> cpl a f = s_cpl a f.
Proof.
  intros Ha Hf. unfold cpl, s_cpl, not8. cbv zeta. f_equal.
  rewrite xy_byte by (unfold byte in *; lia). now apply cpl_flags.
Qed.
Lemma scf_flags y x : forall f, byte f ->
  finsert (fremove f (Z.lor (Z.lor FXY FH) FN)) (Z.lor (flagbyte false false y false x false false false) FC) =
  flagbyte (Sf f) (Zf f) y false x (Pf f) false true.
Proof. destruct y, x; flagsweep. Qed.
Lemma scf_ok q f : byte q -> byte f -> scf q f = s_scf q f.
Proof. intros Hq Hf. unfold scf, s_scf. rewrite xy_byte by exact Hq. now apply scf_flags. Qed.
Lemma ccf_flags y x : forall f, byte f ->
  finsert (fremove f (Z.lor (Z.lor (Z.lor FXY FH) FN) FC))
    (Z.lor (Z.lor (flagbyte false false y false x false false false) (mask_hf (cf f))) (mask_carry (negb (cf f)))) =
  flagbyte (Sf f) (Zf f) y (Cf f) x (Pf f) false (negb (Cf f)).
Proof. destruct y, x; flagsweep. Qed.
Lemma ccf_ok q f : byte q -> byte f -> ccf q f = s_ccf q f.
Proof. intros Hq Hf. unfold ccf, s_ccf. cbv zeta. rewrite xy_byte by exact Hq. now apply ccf_flags. Qed.

(** ** DAA *)
Definition daa_core (c0 h0 n0 : bool) (acc : Z) : option (Z * bool * bool) :=
  match daa_diff c0 (Z.land acc 0xF0) h0 (Z.land acc 0x0F),
        daa_cf c0 (Z.land acc 0xF0) (Z.land acc 0x0F), daa_hf n0 h0 (Z.land acc 0x0F) with
  | Some diff, Some c, Some h => Some (if n0 then u8 (acc - diff) else u8 (acc + diff), h, c)
  | _, _, _ => None
  end.
Definition s_daa_core (c0 h0 n0 : bool) (a : Z) : Z * bool * bool :=
  let lo := a mod 16 in
  let corr := (if h0 || (9 <? lo) then 6 else 0) + (if c0 || (153 <? a) then 96 else 0) in
  ((if n0 then a - corr else a + corr) mod 256, if n0 then h0 && (lo <? 6) else 9 <? lo, c0 || (153 <? a)).
Definition daa_core_eqb (c0 h0 n0 : bool) (a : Z) : bool :=
  match daa_core c0 h0 n0 a with
  | Some (r, h, c) => let '(r', h', c') := s_daa_core c0 h0 n0 a in (r =? r') && Bool.eqb h h' && Bool.eqb c c'
  | None => false
  end.
Lemma daa_core_ok c0 h0 n0 a : byte a -> daa_core c0 h0 n0 a = Some (s_daa_core c0 h0 n0 a).
Proof.
  intros Ha. assert (H : daa_core_eqb c0 h0 n0 a = true).
  { revert a Ha. destruct c0, h0, n0; match goal with |- forall x, byte x -> (@?P x) = true => apply (all1_spec P) end;
    vm_compute; reflexivity. }
  unfold daa_core_eqb in H. destruct (daa_core c0 h0 n0 a) as [[[r h] c]|]; [|discriminate].
  destruct (s_daa_core c0 h0 n0 a) as [[r' h'] c'].
  apply andb_true_iff in H as [H Hc]. apply andb_true_iff in H as [Hr Hh].
  apply Z.eqb_eq in Hr. apply eqb_prop in Hc, Hh. now subst.
Qed.
Lemma daa_ok a f : byte a -> byte f -> daa a f = Some (s_daa a f).
Proof.
  intros Ha Hff. pose proof (daa_core_ok (Cf f) (Hf f) (Nf f) a Ha) as H.
  unfold daa. rewrite cf_Cf, hf_Hf, nf_Nf by exact Hff. unfold daa_core in H. cbv zeta.
  destruct (daa_diff _ _ _ _) as [d|]; [|discriminate].
  destruct (daa_cf _ _ _) as [c|]; [|discriminate].
  destruct (daa_hf _ _ _) as [h|]; [|discriminate].
  unfold s_daa_core in H. injection H as Hr Hh Hc. unfold s_daa. cbv zeta.
  rewrite <- Hr, <- Hh, <- Hc. f_equal. f_equal.
  assert (Hb : byte (if Nf f then u8 (a - d) else u8 (a + d))) by (destruct (Nf f); apply u8_byte).
  revert Hb. generalize (if Nf f then u8 (a - d) else u8 (a + d)) as res. intros res Hb.
  rewrite bitops_byte by exact Hb. unfold flags_szxy. generalize (Nf f); intro. clear Hr Hh Hc. bools.
Qed.

(** ** Rotates *)
Lemma s_rot_byte f : byte (of_bits f).  Proof. apply of_bits_range. Qed.
Lemma rlc_v : forall v, byte v -> rotl8 v 1 = s_rlc_r v.  Proof. sweepz. Qed.
Lemma rlc_c : forall v, byte v -> negb (Z.land (rotl8 v 1) 1 =? 0) = bitn v 7.  Proof. sweepb. Qed.
Lemma rlc_cz : forall v, byte v -> Z.land (rotl8 v 1) 1 = bz (bitn v 7).  Proof. sweepz. Qed.
Lemma rrc_v : forall v, byte v -> rotr8 v 1 = s_rrc_r v.  Proof. sweepz. Qed.
Lemma bit0_c : forall v, byte v -> negb (Z.land v 1 =? 0) = bitn v 0.  Proof. sweepb. Qed.
Lemma bit0_cz : forall v, byte v -> Z.land v 1 = bz (bitn v 0).  Proof. sweepz. Qed.
Lemma bit7_c : forall v, byte v -> negb (Z.land v 128 =? 0) = bitn v 7.  Proof. sweepb. Qed.
Lemma rl_v c : forall v, byte v -> Z.lor (Z.land (rotl8 v 1) (not8 1)) (b2z c) = s_rl_r v c.
Proof. destruct c; sweepz. Qed.
Lemma rr_v c : forall v, byte v -> rotr8 (Z.lor (Z.land v (not8 1)) (b2z c)) 1 = s_rr_r v c.
Proof. destruct c; sweepz. Qed.
Lemma sla_v : forall v, byte v -> u8 (Z.shiftl v 1) = s_rl_r v false.  Proof. sweepz. Qed.
Lemma sll_v : forall v, byte v -> Z.lor (u8 (Z.shiftl v 1)) 1 = s_rl_r v true.  Proof. sweepz. Qed.
Lemma srl_v : forall v, byte v -> Z.shiftr v 1 = s_rr_r v false.  Proof. sweepz. Qed.
Lemma sra_v : forall v, byte v -> u8 (Z.shiftr (i8 v) 1) = s_rr_r v (bitn v 7).  Proof. sweepz. Qed.
Lemma rlc_ok v f : byte v -> rlc v f = s_rlc v.
Proof.
  intros H. unfold rlc, s_rlc. cbv zeta. rewrite rlc_c, rlc_v by exact H. f_equal. apply bitops_byte, of_bits_range.
Qed.
Lemma rrc_ok v f : byte v -> rrc v f = s_rrc v.
Proof.
  intros H. unfold rrc, s_rrc. cbv zeta. rewrite bit0_c, rrc_v by exact H. f_equal. apply bitops_byte, of_bits_range.
Qed.
Lemma rl_ok v f : byte v -> byte f -> rl v f = s_rl v f.
Proof.
  intros H Hf. unfold rl, s_rl. cbv zeta. rewrite rlc_c, land_FC, rl_v by assumption. f_equal.
  apply bitops_byte, of_bits_range.
Qed.
Lemma rr_ok v f : byte v -> byte f -> rr v f = s_rr v f.
Proof.
  intros H Hf. unfold rr, s_rr. cbv zeta. rewrite bit0_c, land_FC, rr_v by assumption. f_equal.
  apply bitops_byte, of_bits_range.
Qed.
Lemma sla_ok v f : byte v -> sla v f = s_sla v.
Proof.
  intros H. unfold sla, s_sla. cbv zeta. rewrite bit7_c, sla_v by exact H. f_equal. apply bitops_byte, of_bits_range.
Qed.
Lemma sll_ok v f : byte v -> sll v f = s_sll v.
Proof.
  intros H. unfold sll, s_sll. cbv zeta. rewrite bit7_c, sll_v by exact H. f_equal. apply bitops_byte, of_bits_range.
Qed.
Lemma srl_ok v f : byte v -> srl v f = s_srl v.
Proof.
  intros H. unfold srl, s_srl. cbv zeta. rewrite bit0_c, srl_v by exact H. f_equal. apply bitops_byte, of_bits_range.
Qed.
Lemma sra_ok v f : byte v -> sra v f = s_sra v.
Proof.
  intros H. unfold sra, s_sra. cbv zeta. rewrite bit0_c, sra_v by exact H. f_equal. apply bitops_byte, of_bits_range.
Qed.
Lemma rota_flags y x c : forall f, byte f ->
  finsert (fremove f MASK_ROTA) (Z.lor (flagbyte false false y false x false false false) (bz c)) =
  flagbyte (Sf f) (Zf f) y false x (Pf f) false c.
Proof. destruct y, x, c; flagsweep. Qed.
Lemma rlca_ok v f : byte v -> byte f -> rlca v f = s_rlca v f.
Proof.
  intros H Hf. unfold rlca, s_rlca, s_rotaflags. cbv zeta. rewrite rlc_cz, rlc_v, xy_byte by (auto using of_bits_range; apply of_bits_range).
  f_equal. now apply rota_flags.
Qed.
Lemma rrca_ok v f : byte v -> byte f -> rrca v f = s_rrca v f.
Proof.
  intros H Hf. unfold rrca, s_rrca, s_rotaflags. cbv zeta. rewrite bit0_cz, rrc_v, xy_byte by (auto using of_bits_range; apply of_bits_range).
  f_equal. now apply rota_flags.
Qed.
Lemma rla_ok v f : byte v -> byte f -> rla v f = s_rla v f.
Proof.
  intros H Hf. unfold rla, s_rla, s_rotaflags. cbv zeta. rewrite rlc_cz, land_FC, rl_v, xy_byte by (auto; apply of_bits_range).
  f_equal. now apply rota_flags.
Qed.
Lemma rra_ok v f : byte v -> byte f -> rra v f = s_rra v f.
Proof.
  intros H Hf. unfold rra, s_rra, s_rotaflags. cbv zeta. rewrite bit0_cz, land_FC, rr_v, xy_byte by (auto; apply of_bits_range).
  f_equal. now apply rota_flags.
Qed.

(** ** RLD, RRD *)
Lemma rot4l : forall v, byte v -> rotl8 v 4 = 16 * (v mod 16) + v / 16.  Proof. sweepz. Qed.
Lemma rot4r : forall v, byte v -> rotr8 v 4 = 16 * (v mod 16) + v / 16.  Proof. sweepz. Qed.
Lemma landF0 : forall v, byte v -> Z.land v 0xF0 = 16 * (v / 16).  Proof. sweepz. Qed.
Lemma land0F v : Z.land v 0x0F = v mod 16.
Proof. change 0x0F with (Z.ones 4). now rewrite Z.land_ones by lia. Qed.
Lemma nib_byte : forall z, byte z -> Z.lor (16 * (z / 16)) (z mod 16) = z.  Proof. sweepz. Qed.
Lemma nib x y : 0 <= x < 16 -> 0 <= y < 16 -> Z.lor (16 * x) y = 16 * x + y.
Proof.
  intros Hx Hy. rewrite <- (nib_byte (16 * x + y)) by (unfold byte; lia).
  replace ((16 * x + y) / 16) with x by lia. replace ((16 * x + y) mod 16) with y by lia. reflexivity.
Qed.
Lemma rld_ok a m f : byte a -> byte m -> byte f -> rld a m f = s_rld a m f.
Proof.
  intros Ha Hm Hf. unfold rld, s_rld. cbv zeta. rewrite cf_Cf by exact Hf.
  rewrite rot4l by exact Hm. rewrite !landF0, !land0F by (unfold byte in *; lia).
  rewrite !nib by (unfold byte in *; lia).
  replace ((16 * (m mod 16) + m / 16) mod 16) with (m / 16) by (unfold byte in *; lia).
  replace ((16 * (m mod 16) + m / 16) / 16) with (m mod 16) by (unfold byte in *; lia).
  f_equal. apply bitops_byte. unfold byte in *. lia.
Qed.
Lemma rrd_ok a m f : byte a -> byte m -> byte f -> rrd a m f = s_rrd a m f.
Proof.
  intros Ha Hm Hf. unfold rrd, s_rrd. cbv zeta. rewrite cf_Cf by exact Hf.
  rewrite !landF0, !land0F by assumption. rewrite !nib by (unfold byte in *; lia).
  rewrite rot4r by (unfold byte in *; lia). f_equal; [f_equal; unfold byte in *; lia|].
  apply bitops_byte. unfold byte in *. lia.
Qed.
(** ** Bits *)
Lemma bit_zero : forall v n, byte v -> 0 <= n < 8 -> (Z.land v (u8 (Z.shiftl 1 n)) =? 0) = negb (bitn v n).
Proof. sweepb8. Qed.
Lemma bit_sign : forall v n, byte v -> 0 <= n < 8 ->
  mask_sign (Z.land v (u8 (Z.shiftl 1 n))) = bz ((n =? 7) && bitn v 7) * 128.
Proof. sweepz8. Qed.
Lemma bit_mp_ok n v xy f : 0 <= n < 8 -> byte v -> byte xy -> byte f ->
  bit_mp n v xy f = s_bit n v xy f.
Proof.
  intros Hn Hv Hx Hf. unfold bit_mp, s_bit. cbv zeta.
  rewrite bit_zero, bit_sign, xy_byte, land_FC by assumption.
  generalize ((n =? 7) && bitn v 7) (Cf f); intros. bools.
Qed.
Lemma bit_ok n v f : 0 <= n < 8 -> byte v -> byte f -> bit n v f = s_bit n v v f.
Proof. intros. now rewrite <- bit_mp_ok. Qed.
Lemma res_ok' : forall v n, byte v -> 0 <= n < 8 -> res n v = s_res n v.
Proof. sweepz8. Qed.
Lemma res_ok n v : 0 <= n < 8 -> byte v -> res n v = s_res n v.
Proof. intros. now apply res_ok'. Qed.
Lemma set_ok' : forall v n, byte v -> 0 <= n < 8 -> set n v = s_set n v.
Proof. sweepz8. Qed.
Lemma set_ok n v : 0 <= n < 8 -> byte v -> set n v = s_set n v.
Proof. intros. now apply set_ok'. Qed.
(** ** LD A,I, IN *)
Lemma ld_a_ir_ok v pv f : byte v -> byte f -> ld_a_ir v pv f = s_ld_a_ir v pv f.
Proof.
  intros Hv Hf. unfold ld_a_ir, s_ld_a_ir, flags_szxy, mask_zero. rewrite sxy_byte, land_FC by assumption.
  generalize (Cf f); intro. bools.
Qed.
Lemma io_ok v f : byte v -> byte f -> io v f = s_in v f.
Proof. intros Hv Hf. unfold io, s_in. rewrite cf_Cf by exact Hf. now apply bitops_byte. Qed.
(** ** Block instructions *)
Lemma ldx_flags y x z : forall f, byte f ->
  finsert (fremove f (Z.lor (Z.lor (Z.lor FH FXY) FPV) FN))
    (Z.lor (flagbyte false false y false x false false false) (mask_pvf z)) =
  flagbyte (Sf f) (Zf f) y false x z false (Cf f).
Proof. destruct y, x, z; flagsweep. Qed.
Lemma ldx_ok a v z f : byte a -> byte v -> byte f -> ldx a v z f = s_ldx a v z f.
Proof.
  intros Ha Hv Hf. unfold ldx, s_ldx. cbv zeta. rewrite (Z.add_comm v a).
  rewrite blockxy_byte by apply u8_byte. now apply ldx_flags.
Qed.
Lemma hf_cpx h s z b c : hf (Z.lor (Z.lor (Z.lor (Z.lor (fif h FH) FN) (flagbyte s false false false false false false false)) (fif z FZ))
  (mask_pvf b)) = h /\ c = c :> bool.
Proof. split; [|reflexivity]. destruct h, s, z, b; reflexivity. Qed.
Lemma cpx_ok a v z f : byte a -> byte v -> byte f ->
  cpx a v z f = (z || (a =? v), s_cpx a v z f).
Proof.
  intros Ha Hv Hf. unfold cpx, s_cpx. cbv zeta.
  assert (E : (u8 (a - v) =? 0) = (a =? v)) by (unfold u8, byte in *; lia).
  f_equal; [now rewrite E|].
  unfold mask_zero. rewrite land_FC, h_sub, sign_byte by auto using u8_byte.
  rewrite (proj1 (hf_cpx _ _ _ _ true)). rewrite blockxy_byte by apply u8_byte.
  replace (a mod 16 - v mod 16 <? 0) with (a mod 16 <? v mod 16) by lia.
  change (b2z (a mod 16 <? v mod 16)) with (bz (a mod 16 <? v mod 16)).
  change (u8 (a - v)) with ((a - v) mod 256).
  change (u8 ((a - v) mod 256 - bz (a mod 16 <? v mod 16))) with (((a - v) mod 256 - bz (a mod 16 <? v mod 16)) mod 256).
  generalize (Cf f); intro.
  generalize (bitn (((a - v) mod 256 - bz (a mod 16 <? v mod 16)) mod 256) 1),
             (bitn (((a - v) mod 256 - bz (a mod 16 <? v mod 16)) mod 256) 3). intros.
  bools.
Qed.
Lemma parity_xor : forall b k, byte b -> 0 <= k < 8 ->
  (Z.land (count_ones (Z.lxor k b)) 1 =? 0) = xorb (evenparity k) (negb (evenparity b)).
Proof. sweepb8. Qed.
Lemma iox_ok v b m f : byte v -> byte b -> byte m -> iox v b m f = s_iox v b m.
Proof.
  intros Hv Hb Hm. unfold iox, s_iox, parity, mask_zero. cbv zeta.
  assert (E : Z.land (u8 (v + m)) 7 = (v + m) mod 8).
  { change 7 with (Z.ones 3). rewrite Z.land_ones by lia. unfold u8. change (2^3) with 8. lia. }
  rewrite E, parity_xor, bit7_c, sxy_byte by (auto; lia).
  generalize (xorb (evenparity ((v + m) mod 8)) (negb (evenparity b))); intro.
  bools.
Qed.
