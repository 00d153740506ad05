(** Well-formedness: every register of the model holds a value of its Rust type.  In Rust this is
    guaranteed by the types; here it is the invariant [wf], preserved by every operation. *)
From Coq Require Import ZArith Bool List String Lia ZifyBool.
From Verif Require Import Base Flags Ops Parse Cpu SpecAlu AluProofs Alu16Proofs Internal Flavours Instr Decode.
Import ListNotations.
Open Scope Z_scope.
Ltac Zify.zify_post_hook ::= Z.div_mod_to_equations.

Record wf {Q} (c : cpu Q) : Prop := mkWf {
  wf_af : word (af c); wf_af_alt : word (af_alt c);
  wf_bc : word (bc c); wf_de : word (de c); wf_hl : word (hl c);
  wf_bc_alt : word (bc_alt c); wf_de_alt : word (de_alt c); wf_hl_alt : word (hl_alt c);
  wf_ix : word (ix c); wf_iy : word (iy c);
  wf_pc : word (pc c); wf_sp : word (sp c); wf_memptr : word (memptr c);
  wf_ir : word (ir c); wf_r : byte (r c) }.

Create HintDb rng.
Lemma u16_word x : word (u16 x).  Proof. unfold word, u16. lia. Qed.
Lemma hi8_byte w : word w -> byte (hi8 w).  Proof. unfold word, byte, hi8. lia. Qed.
Lemma lo8_byte w : byte (lo8 w).  Proof. unfold byte, lo8. lia. Qed.
Lemma mk16_word h l : byte h -> byte l -> word (mk16 h l).  Proof. unfold word, byte, mk16. lia. Qed.
Lemma set8hi_word w v : byte v -> word (set8hi w v).
Proof. intros. apply mk16_word; [assumption|apply lo8_byte]. Qed.
Lemma set8lo_word w v : word w -> byte v -> word (set8lo w v).
Proof. intros. apply mk16_word; [now apply hi8_byte|assumption]. Qed.
Lemma byte_word x : byte x -> word x.  Proof. unfold word, byte. lia. Qed.
#[export] Hint Resolve u8_byte u16_word hi8_byte lo8_byte mk16_word set8hi_word set8lo_word : rng.
#[export] Hint Resolve wf_af wf_af_alt wf_bc wf_de wf_hl wf_bc_alt wf_de_alt wf_hl_alt wf_ix wf_iy wf_pc
  wf_sp wf_memptr wf_ir wf_r : rng.

(** ** Bit operations stay in range *)
Lemma land_range x m n : 0 <= m < 2 ^ n -> 0 <= n -> 0 <= Z.land x m < 2 ^ n.
Proof.
  intros Hm Hn. assert (H0 : 0 <= Z.land x m) by (apply Z.land_nonneg; lia). split; [exact H0|].
  destruct (Z.eq_dec (Z.land x m) 0) as [->|H]; [lia|].
  assert (Z.land x m <= m); [|lia].
  rewrite <- (Z.land_ldiff m x) at 1 || idtac.
  assert (E : m - Z.land x m = Z.ldiff m x).
  { rewrite Z.sub_nocarry_ldiff; [|apply Z.bits_inj'; intros k Hk;
      rewrite Z.ldiff_spec, Z.land_spec, Z.bits_0; now destruct (Z.testbit x k), (Z.testbit m k)].
    apply Z.bits_inj'. intros k Hk. rewrite !Z.ldiff_spec, Z.land_spec.
    now destruct (Z.testbit x k), (Z.testbit m k). }
  assert (0 <= Z.ldiff m x) by (apply Z.ldiff_nonneg; lia). lia.
Qed.
Lemma lor_word x y : word x -> word y -> word (Z.lor x y).
Proof.
  intros Hx Hy. unfold word in *. assert (0 <= Z.lor x y) by (apply Z.lor_nonneg; lia).
  split; [lia|]. destruct (Z.eq_dec (Z.lor x y) 0) as [->|Hn]; [lia|].
  apply (Z.log2_lt_pow2 _ 16); [lia|]. rewrite Z.log2_lor by lia.
  apply Z.max_lub_lt; [destruct (Z.eq_dec x 0) as [->|]|destruct (Z.eq_dec y 0) as [->|]];
    try reflexivity; apply Z.log2_lt_pow2; lia.
Qed.
Lemma land_byte_r x m : byte m -> byte (Z.land x m).
Proof. intros H. apply (land_range x m 8); [exact H|lia]. Qed.
Lemma land_word_r x m : word m -> word (Z.land x m).
Proof. intros H. apply (land_range x m 16); [exact H|lia]. Qed.
Lemma ldiff_byte x m : byte x -> byte (Z.ldiff x m).
Proof.
  intros H. replace (Z.ldiff x m) with (Z.land (Z.lnot m) x).
  - now apply land_byte_r.
  - rewrite Z.land_comm. symmetry. apply Z.ldiff_land.
Qed.
Lemma fif_byte b m : byte m -> byte (fif b m).
Proof. unfold fif, byte. destruct b; lia. Qed.
#[export] Hint Resolve land_byte_r land_word_r lor_byte lor_word : rng.

(** ** CPU accessors *)
Section Wf.
Context {Q : Type}.
Implicit Types c : cpu Q.
Lemma wf_set_af v c : word v -> wf c -> wf (set_af v c).  Proof. intros ? []; constructor; assumption. Qed.
Lemma wf_set_af_alt v c : word v -> wf c -> wf (set_af_alt v c).  Proof. intros ? []; constructor; assumption. Qed.
Lemma wf_set_bc v c : word v -> wf c -> wf (set_bc v c).  Proof. intros ? []; constructor; assumption. Qed.
Lemma wf_set_de v c : word v -> wf c -> wf (set_de v c).  Proof. intros ? []; constructor; assumption. Qed.
Lemma wf_set_hl v c : word v -> wf c -> wf (set_hl v c).  Proof. intros ? []; constructor; assumption. Qed.
Lemma wf_set_ix v c : word v -> wf c -> wf (set_ix v c).  Proof. intros ? []; constructor; assumption. Qed.
Lemma wf_set_iy v c : word v -> wf c -> wf (set_iy v c).  Proof. intros ? []; constructor; assumption. Qed.
Lemma wf_set_pc v c : word v -> wf c -> wf (set_pc v c).  Proof. intros ? []; constructor; assumption. Qed.
Lemma wf_set_sp v c : word v -> wf c -> wf (set_sp v c).  Proof. intros ? []; constructor; assumption. Qed.
Lemma wf_set_memptr v c : word v -> wf c -> wf (set_memptr v c).  Proof. intros ? []; constructor; assumption. Qed.
Lemma wf_set_ir v c : word v -> wf c -> wf (set_ir v c).  Proof. intros ? []; constructor; assumption. Qed.
Lemma wf_set_rfield v c : byte v -> wf c -> wf (set_rfield v c).  Proof. intros ? []; constructor; assumption. Qed.
Lemma wf_set_last_ei v c : wf c -> wf (set_last_ei v c).  Proof. intros []; constructor; assumption. Qed.
Lemma wf_set_im v c : wf c -> wf (set_im v c).  Proof. intros []; constructor; assumption. Qed.
Lemma wf_set_iffs v w c : wf c -> wf (set_iffs v w c).  Proof. intros []; constructor; assumption. Qed.
Lemma wf_set_halt v c : wf c -> wf (set_halt v c).  Proof. intros []; constructor; assumption. Qed.
Lemma wf_set_prefix v c : wf c -> wf (set_prefix v c).  Proof. intros []; constructor; assumption. Qed.
Lemma wf_set_flavour v c : wf c -> wf (set_flavour v c).  Proof. intros []; constructor; assumption. Qed.
Hint Resolve wf_set_af wf_set_af_alt wf_set_bc wf_set_de wf_set_hl wf_set_ix wf_set_iy
  wf_set_pc wf_set_sp wf_set_memptr wf_set_ir wf_set_rfield wf_set_last_ei wf_set_im wf_set_iffs
  wf_set_halt wf_set_prefix wf_set_flavour : rng.

Lemma wf_set_acc v c : byte v -> wf c -> wf (set_acc v c).
Proof. unfold set_acc. eauto with rng. Qed.
Lemma wf_set_flags v c : byte v -> wf c -> wf (set_flags v c).
Proof. unfold set_flags. eauto 6 with rng. Qed.
Lemma wf_get_acc c : wf c -> byte (get_acc c).
Proof. unfold get_acc. auto with rng. Qed.
Lemma wf_get_flags c : byte (get_flags c).
Proof. unfold get_flags. auto with rng. Qed.
Lemma wf_get_ir c : wf c -> word (get_ir c).
Proof. intros H. unfold get_ir. apply lor_word; apply land_word_r; unfold word; lia. Qed.
Lemma wf_get_r c : byte (get_r c).
Proof. unfold get_r. apply lor_byte; apply land_byte_r; unfold byte; lia. Qed.
Lemma wf_inc_r c : wf c -> wf (inc_r c).
Proof. unfold inc_r. auto with rng. Qed.
Lemma wf_add_r n c : wf c -> wf (add_r n c).
Proof. unfold add_r. auto with rng. Qed.
Lemma wf_set_r v c : byte v -> wf c -> wf (set_r v c).
Proof. unfold set_r. eauto 6 with rng. Qed.
Lemma wf_set_i v c : byte v -> wf c -> wf (set_i v c).
Proof. unfold set_i. eauto 6 with rng. Qed.
Lemma wf_do_halt c : wf c -> wf (do_halt c).
Proof. unfold do_halt. auto with rng. Qed.
Lemma wf_exx c : wf c -> wf (exx c).
Proof. intros []; constructor; assumption. Qed.
Lemma wf_ex_af_af c : wf c -> wf (ex_af_af c).
Proof. intros []; constructor; assumption. Qed.
Lemma wf_ex_de_hl c : wf c -> wf (ex_de_hl c).
Proof. intros []; constructor; assumption. Qed.
Lemma wf_restore_iff1 c : wf c -> wf (restore_iff1 c).
Proof. unfold restore_iff1. auto with rng. Qed.
Lemma wf_disable c : wf c -> wf (disable_interrupts c).
Proof. unfold disable_interrupts. auto with rng. Qed.
Lemma wf_enable c : wf c -> wf (enable_interrupts c).
Proof. unfold enable_interrupts. auto with rng. Qed.
Lemma wf_get_reg g p c : wf c -> byte (get_reg g p c).
Proof. intros H. destruct g, p as [[]|]; cbn [get_reg]; auto with rng. Qed.
Lemma wf_set_reg g p v c : byte v -> wf c -> wf (set_reg g p v c).
Proof. intros Hv H. destruct g, p as [[]|]; cbn [set_reg]; auto with rng. Qed.
Lemma wf_get_r16 g c : wf c -> word (get_r16 g c).
Proof. intros H. destruct g; cbn [get_r16]; auto with rng. Qed.
Lemma wf_set_r16 g v c : word v -> wf c -> wf (set_r16 g v c).
Proof. intros Hv H. destruct g; cbn [set_r16]; auto with rng. Qed.
Lemma wf_get_reg16 g c : wf c -> word (get_reg16 g c).
Proof. intros H. destruct g; cbn [get_reg16]; auto with rng. Qed.
Lemma wf_set_reg16 g v c : word v -> wf c -> wf (set_reg16 g v c).
Proof. intros Hv H. destruct g; cbn [set_reg16]; auto with rng. Qed.
Lemma wf_get_index16 g c : wf c -> word (get_index16 g c).
Proof. intros H. destruct g; cbn [get_index16]; auto with rng. Qed.
Lemma wf_set_index16 g v c : word v -> wf c -> wf (set_index16 g v c).
Proof. intros Hv H. destruct g; cbn [set_index16]; auto with rng. Qed.
Lemma wf_get_prefix_reg16 g p c : wf c -> word (get_prefix_reg16 g p c).
Proof. intros H. destruct g, p; cbn [get_prefix_reg16 get_index16]; auto with rng. Qed.
Lemma wf_load_reg d s p c : wf c -> wf (load_reg d s p c).
Proof. intros H. unfold load_reg. auto using wf_set_reg, wf_get_reg. Qed.
Lemma wf_rp_bc_de b c : wf c -> word (rp_bc_de b c).
Proof. intros H. destruct b; cbn [rp_bc_de]; auto with rng. Qed.
End Wf.
#[export] Hint Resolve wf_set_af wf_set_af_alt wf_set_bc wf_set_de wf_set_hl wf_set_ix wf_set_iy
  wf_set_pc wf_set_sp wf_set_memptr wf_set_ir wf_set_rfield wf_set_last_ei wf_set_im wf_set_iffs
  wf_set_halt wf_set_prefix wf_set_flavour : rng.
#[export] Hint Resolve wf_set_acc wf_set_flags wf_get_acc wf_get_flags wf_get_ir wf_get_r wf_inc_r wf_add_r
  wf_set_r wf_set_i wf_do_halt wf_exx wf_ex_af_af wf_ex_de_hl wf_restore_iff1 wf_disable wf_enable
  wf_get_reg wf_set_reg wf_get_r16 wf_set_r16 wf_get_reg16 wf_set_reg16 wf_get_index16 wf_set_index16
  wf_get_prefix_reg16 wf_load_reg wf_rp_bc_de : rng.

(** ** ALU results *)
Lemma mod256_byte x : byte (x mod 256).  Proof. unfold byte. lia. Qed.
Lemma mod65536_word x : word (x mod 65536).  Proof. unfold word. lia. Qed.
Lemma flags_szxy_byte r xy h p n c : byte (flags_szxy r xy h p n c).
Proof. apply flagbyte_byte. Qed.
#[export] Hint Resolve mod256_byte mod65536_word flags_szxy_byte flagbyte_byte of_bits_range : rng.
(** an 8-bit operation giving a byte and a flag byte *)
Definition bytes2 (x : Z * Z) : Prop := byte (fst x) /\ byte (snd x).
Lemma bytes2_fst x : bytes2 x -> byte (fst x).  Proof. exact (fun H => proj1 H). Qed.
Lemma bytes2_snd x : bytes2 x -> byte (snd x).  Proof. exact (fun H => proj2 H). Qed.
Lemma rg_add a v f : byte a -> byte v -> bytes2 (add a v f).
Proof. intros. rewrite add_ok by assumption. split; cbn; auto with rng. Qed.
Lemma rg_adc a v f : byte a -> byte v -> byte f -> bytes2 (adc a v f).
Proof. intros. rewrite adc_ok by assumption. split; cbn; auto with rng. Qed.
Lemma rg_sub a v f : byte a -> byte v -> bytes2 (sub a v f).
Proof. intros. rewrite sub_ok by assumption. split; cbn; auto with rng. Qed.
Lemma rg_sbc a v f : byte a -> byte v -> byte f -> bytes2 (sbc a v f).
Proof. intros. rewrite sbc_ok by assumption. split; cbn; auto with rng. Qed.
Lemma rg_cp a v f : byte a -> byte v -> byte (cp a v f).
Proof. intros. rewrite cp_ok by assumption. apply flags_szxy_byte. Qed.
Lemma rg_and a v f : byte a -> byte v -> bytes2 (and8 a v f).
Proof. intros. rewrite and_ok by assumption. split; [apply of_bits_range|apply flags_szxy_byte]. Qed.
Lemma rg_or a v f : byte a -> byte v -> bytes2 (or8 a v f).
Proof. intros. rewrite or_ok by assumption. split; [apply of_bits_range|apply flags_szxy_byte]. Qed.
Lemma rg_xor a v f : byte a -> byte v -> bytes2 (xor8 a v f).
Proof. intros. rewrite xor_ok by assumption. split; [apply of_bits_range|apply flags_szxy_byte]. Qed.
Lemma rg_inc v f : byte v -> byte f -> bytes2 (inc v f).
Proof. intros. rewrite inc_ok by assumption. split; cbn; auto with rng. Qed.
Lemma rg_dec v f : byte v -> byte f -> bytes2 (dec v f).
Proof. intros. rewrite dec_ok by assumption. split; cbn; auto with rng. Qed.
Lemma rg_neg v f : byte v -> bytes2 (neg v f).
Proof. intros. rewrite neg_ok by assumption. split; cbn; auto with rng. Qed.
Lemma rg_cpl v f : byte v -> byte f -> bytes2 (cpl v f).
Proof. intros. rewrite cpl_ok by assumption. split; [change (byte (255 - v)); unfold byte in *; lia|cbn; auto with rng]. Qed.
Lemma rg_scf q f : byte f -> byte (scf q f).
Proof.
  intros. unfold scf, finsert, fremove. apply lor_byte; [now apply ldiff_byte|].
  apply lor_byte; [apply land_byte_r|]; unfold byte; vm_compute; split; congruence.
Qed.
Lemma rg_ccf q f : byte f -> byte (ccf q f).
Proof.
  intros. unfold ccf, finsert, fremove. apply lor_byte; [now apply ldiff_byte|].
  apply lor_byte; [apply lor_byte; [apply land_byte_r|apply fif_byte]|apply fif_byte];
  unfold byte; vm_compute; split; congruence.
Qed.
Lemma rg_daa a f x : byte a -> byte f -> daa a f = Some x -> bytes2 x.
Proof.
  intros Ha Hff H. rewrite daa_ok in H by assumption. injection H as <-.
  split; cbn; auto with rng.
Qed.
Lemma daa_some a f : byte a -> byte f -> daa a f <> None.
Proof. intros Ha Hff. rewrite daa_ok by assumption. discriminate. Qed.
Lemma rg_rot o v f : byte v -> byte f -> bytes2 (rot_op o v f).
Proof.
  intros Hv Hff. destruct o; cbn [rot_op].
  - rewrite rlc_ok by assumption. split; [apply of_bits_range|apply flags_szxy_byte].
  - rewrite rrc_ok by assumption. split; [apply of_bits_range|apply flags_szxy_byte].
  - rewrite rl_ok by assumption. split; [apply of_bits_range|apply flags_szxy_byte].
  - rewrite rr_ok by assumption. split; [apply of_bits_range|apply flags_szxy_byte].
  - rewrite sla_ok by assumption. split; [apply of_bits_range|apply flags_szxy_byte].
  - rewrite sra_ok by assumption. split; [apply of_bits_range|apply flags_szxy_byte].
  - rewrite sll_ok by assumption. split; [apply of_bits_range|apply flags_szxy_byte].
  - rewrite srl_ok by assumption. split; [apply of_bits_range|apply flags_szxy_byte].
Qed.
Lemma rg_rlca v f : byte v -> byte f -> bytes2 (rlca v f).
Proof. intros. rewrite rlca_ok by assumption. split; [apply of_bits_range|apply flagbyte_byte]. Qed.
Lemma rg_rrca v f : byte v -> byte f -> bytes2 (rrca v f).
Proof. intros. rewrite rrca_ok by assumption. split; [apply of_bits_range|apply flagbyte_byte]. Qed.
Lemma rg_rla v f : byte v -> byte f -> bytes2 (rla v f).
Proof. intros. rewrite rla_ok by assumption. split; [apply of_bits_range|apply flagbyte_byte]. Qed.
Lemma rg_rra v f : byte v -> byte f -> bytes2 (rra v f).
Proof. intros. rewrite rra_ok by assumption. split; [apply of_bits_range|apply flagbyte_byte]. Qed.
Lemma rg_rld a m f : byte a -> byte m -> byte f -> bytes2 (fst (rld a m f)) /\ byte (snd (rld a m f)).
Proof.
  intros. rewrite rld_ok by assumption. unfold s_rld, bytes2; cbn [fst snd].
  split; [split; unfold byte in *; lia|auto with rng].
Qed.
Lemma rg_rrd a m f : byte a -> byte m -> byte f -> bytes2 (fst (rrd a m f)) /\ byte (snd (rrd a m f)).
Proof.
  intros. rewrite rrd_ok by assumption. unfold s_rrd, bytes2; cbn [fst snd].
  split; [split; unfold byte in *; lia|auto with rng].
Qed.
Lemma rg_bit_mp n v xy f : 0 <= n < 8 -> byte v -> byte xy -> byte f -> byte (bit_mp n v xy f).
Proof. intros. rewrite bit_mp_ok by assumption. apply flagbyte_byte. Qed.
Lemma rg_bit n v f : 0 <= n < 8 -> byte v -> byte f -> byte (bit n v f).
Proof. intros. rewrite bit_ok by assumption. apply flagbyte_byte. Qed.
Lemma rg_res n v : 0 <= n < 8 -> byte v -> byte (res n v).
Proof. intros. rewrite res_ok by assumption. apply of_bits_range. Qed.
Lemma rg_set n v : 0 <= n < 8 -> byte v -> byte (set n v).
Proof. intros. rewrite set_ok by assumption. apply of_bits_range. Qed.
Lemma rg_ld_a_ir v p f : byte v -> byte f -> byte (ld_a_ir v p f).
Proof. intros. rewrite ld_a_ir_ok by assumption. apply flagbyte_byte. Qed.
Lemma rg_io v f : byte v -> byte f -> byte (io v f).
Proof. intros. rewrite io_ok by assumption. apply flagbyte_byte. Qed.
Lemma rg_ldx a v z f : byte a -> byte v -> byte f -> byte (ldx a v z f).
Proof. intros. rewrite ldx_ok by assumption. apply flagbyte_byte. Qed.
Lemma rg_cpx a v z f : byte a -> byte v -> byte f -> byte (snd (cpx a v z f)).
Proof. intros. rewrite cpx_ok by assumption. apply flagbyte_byte. Qed.
Lemma rg_iox v b m f : byte v -> byte b -> byte m -> byte (iox v b m f).
Proof. intros. rewrite iox_ok by assumption. apply flagbyte_byte. Qed.
Definition wordbyte (x : Z * Z) : Prop := word (fst x) /\ byte (snd x).
Lemma rg_add16 x y f : word x -> word y -> byte f -> wordbyte (add16 x y f).
Proof. intros. rewrite add16_ok by assumption. split; cbn; auto with rng. Qed.
Lemma rg_adc16 x y f : word x -> word y -> byte f -> wordbyte (adc16 x y f).
Proof. intros. rewrite adc16_ok by assumption. split; cbn; auto with rng. Qed.
Lemma rg_sbc16 x y f : word x -> word y -> byte f -> wordbyte (sbc16 x y f).
Proof. intros. rewrite sbc16_ok by assumption. split; cbn; auto with rng. Qed.
Lemma wordbyte_fst x : wordbyte x -> word (fst x).  Proof. exact (fun H => proj1 H). Qed.
Lemma wordbyte_snd x : wordbyte x -> byte (snd x).  Proof. exact (fun H => proj2 H). Qed.
Lemma rg_rld1 a m f : byte a -> byte m -> byte f -> bytes2 (fst (rld a m f)).
Proof. intros. now apply rg_rld. Qed.
Lemma rg_rld2 a m f : byte a -> byte m -> byte f -> byte (snd (rld a m f)).
Proof. intros. now apply rg_rld. Qed.
Lemma rg_rrd1 a m f : byte a -> byte m -> byte f -> bytes2 (fst (rrd a m f)).
Proof. intros. now apply rg_rrd. Qed.
Lemma rg_rrd2 a m f : byte a -> byte m -> byte f -> byte (snd (rrd a m f)).
Proof. intros. now apply rg_rrd. Qed.
#[export] Hint Resolve rg_add rg_adc rg_sub rg_sbc rg_cp rg_and rg_or rg_xor rg_inc rg_dec rg_neg rg_cpl
  rg_scf rg_ccf rg_rot rg_rlca rg_rrca rg_rla rg_rra rg_rld1 rg_rld2 rg_rrd1 rg_rrd2 rg_bit_mp rg_bit rg_res
  rg_set rg_ld_a_ir rg_io rg_ldx rg_cpx rg_iox rg_add16 rg_adc16 rg_sbc16 : rng.
#[export] Hint Resolve bytes2_fst bytes2_snd wordbyte_fst wordbyte_snd : rng.
Lemma indexed_address_word i d : word (indexed_address i d).
Proof. apply u16_word. Qed.
Lemma relative_jump_word p e : word (relative_jump_address p e).
Proof. apply u16_word. Qed.
Lemma restart_word c : word (parse_restart_address c).
Proof. unfold parse_restart_address. apply land_word_r. unfold word; lia. Qed.
#[export] Hint Resolve indexed_address_word relative_jump_word bitnum_range restart_word : rng.
