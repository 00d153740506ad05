(** Arithmetic facts relating the model's register operations to those of [SpecIsa]. *)
From Coq Require Import ZArith Bool List String Lia ZifyBool.
From Verif Require Import Base Flags Ops Parse Cpu Flavours Prog Trace Internal Instr Exec Decode Sym Range Safe
  AluProofs Alu16Proofs SpecAlu SpecState SpecIsa Accessors IsaLink Dbg.
Import ListNotations.
Open Scope Z_scope.
Ltac Zify.zify_post_hook ::= Z.div_mod_to_equations.

(** ** Arithmetic of the two descriptions *)
Lemma ix_disp x d : byte d -> indexed_address x d = disp x d.
Proof. intros H. unfold indexed_address, disp, w16, u16. change i8 with signed8. lia. Qed.
Lemma jr_disp x d : byte d -> relative_jump_address x d = disp x d.
Proof. exact (ix_disp x d). Qed.
Lemma dec2 x : u16 (u16 (x - 1) - 1) = u16 (x - 2).
Proof. unfold u16. lia. Qed.
Lemma inc2_dec x : u16 (u16 (x + 2) - 1) = u16 (x + 1).
Proof. unfold u16. lia. Qed.
Lemma add_m1w x : u16 (x + 65535) = u16 (x + -1).
Proof. unfold u16. lia. Qed.
Lemma add_m1b x : u8 (x + u8 65535) = u8 (x + -1).
Proof. unfold u8. change (65535 mod 256) with 255. lia. Qed.
Lemma add_p1b x : u8 (x + u8 1) = u8 (x + 1).
Proof. reflexivity. Qed.
Lemma sat_holds cc f : is_satisfied cc f = holds cc f.
Proof.
  assert (G : forall i, 0 <= i -> contains f (2 ^ i) = bitn f i).
  { intros i Hi. unfold contains, bitn.
    rewrite <- (Z.mul_1_l (2 ^ i)), <- Z.shiftl_mul_pow2 by assumption.
    destruct (Z.testbit f i) eqn:E.
    - apply Z.eqb_eq. apply Z.bits_inj'. intros j Hj. rewrite Z.land_spec, Z.shiftl_spec by assumption.
      destruct (Z.eq_dec j i) as [->|N].
      + rewrite Z.sub_diag. rewrite E. reflexivity.
      + replace (Z.testbit 1 (j - i)) with false; [apply andb_false_r|].
        symmetry. change 1 with (2 ^ 0). apply Z.pow2_bits_false. lia.
    - apply Z.eqb_neq. intros X. apply (f_equal (fun x => Z.testbit x i)) in X.
      rewrite Z.land_spec, Z.shiftl_spec, Z.sub_diag, E in X by assumption. discriminate. }
  pose proof (G 0 ltac:(lia)) as G0. pose proof (G 2 ltac:(lia)) as G2.
  pose proof (G 6 ltac:(lia)) as G6. pose proof (G 7 ltac:(lia)) as G7.
  destruct cc; cbn [is_satisfied holds]; unfold Sf, Zf, Pf, Cf;
    rewrite <- ?G0, <- ?G2, <- ?G6, <- ?G7; reflexivity.
Qed.
Lemma rot_ok r v f : byte v -> byte f -> rot_op r v f = rot r v f.
Proof.
  intros Hv Hff. destruct r; cbn [rot_op rot];
    first [apply rlc_ok|apply rrc_ok|apply rl_ok|apply rr_ok|apply sla_ok|apply sra_ok|apply sll_ok|apply srl_ok];
    assumption.
Qed.
Definition rval (i x : Z) : Z := 128 * (lo8 i / 128) + x mod 128.
Lemma get_r_rval {Q} (c : cpu Q) : get_r c = rval (ir c) (r c).
Proof.
  unfold get_r, rval. rewrite lor_add by apply land_128_127.
  rewrite land_80 by apply lo8_byte. rewrite land_7f. reflexivity.
Qed.
Lemma get_ir_rval {Q} (c : cpu Q) : word (ir c) -> get_ir c = mk16 (hi8 (ir c)) (rval (ir c) (r c)).
Proof.
  intros Hi. unfold get_ir, rval. rewrite lor_add.
  - rewrite land_ff80 by assumption. rewrite land_7f. unfold mk16, hi8, lo8. lia.
  - apply Z.bits_inj'. intros i Hp. rewrite !Z.land_spec, Z.bits_0.
    destruct (Z.ltb_spec i 7) as [L|L].
    + replace (Z.testbit 65408 i) with false; [now rewrite andb_false_r|].
      assert (i = 0 \/ i = 1 \/ i = 2 \/ i = 3 \/ i = 4 \/ i = 5 \/ i = 6) as D by lia.
      repeat destruct D as [->|D]; subst; reflexivity.
    + replace (Z.testbit 127 i) with false; [now rewrite !andb_false_r|].
      symmetry. apply (Z.bits_above_log2 127); [lia|]. change (Z.log2 127) with 6. lia.
Qed.
Lemma rval_inc i x : rval i (u8 (x + 1)) = 128 * (rval i x / 128) + (rval i x mod 128 + 1) mod 128.
Proof. unfold rval, u8, lo8. lia. Qed.
Lemma rval_byte i x : byte (rval i x).
Proof. unfold rval, byte, lo8. lia. Qed.
Lemma rval_set i v : byte v -> rval (set8lo i v) v = v.
Proof. intros H. unfold rval, set8lo. rewrite lo_mk by assumption. unfold byte in H. lia. Qed.
Lemma rval_seti i v x : rval (set8hi i v) x = rval i x.
Proof. unfold rval, set8hi. rewrite lo_mk by apply lo8_byte. reflexivity. Qed.
Lemma hi_sethi w v : hi8 (set8hi w v) = v.
Proof. apply hi_mk, lo8_byte. Qed.
Lemma lo_sethi w v : lo8 (set8hi w v) = lo8 w.
Proof. apply lo_mk, lo8_byte. Qed.
Lemma hi_setlo w v : byte v -> hi8 (set8lo w v) = hi8 w.
Proof. intros. now apply hi_mk. Qed.
Lemma lo_setlo w v : byte v -> lo8 (set8lo w v) = v.
Proof. intros. now apply lo_mk. Qed.
#[export] Hint Resolve rval_byte : rng.

Lemma mk_divmod v : mk16 (v / 256) (v mod 256) = v.
Proof. unfold mk16. lia. Qed.
