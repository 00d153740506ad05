(** The memory of the RAL 1243 against its manual. *)
From Coq Require Import ZArith Bool List Lia.
From Verif Require Import Base RalMemory SpecRal.
Import ListNotations.
Open Scope Z_scope.
Ltac Zify.zify_post_hook ::= Z.div_mod_to_equations.

Lemma land_mask a : Z.land a 0x1FFF = a mod 0x2000.
Proof. change 0x1FFF with (Z.ones 13). now rewrite Z.land_ones by lia. Qed.
Lemma land_select a : 0 <= a < 0x10000 -> Z.land a 0xE000 = a / 0x2000 * 0x2000.
Proof.
  intro H. apply Z.bits_inj'. intros n Hn. rewrite Z.land_spec.
  change 0x2000 with (2 ^ 13). rewrite <- Z.shiftr_div_pow2, <- Z.shiftl_mul_pow2 by lia.
  rewrite Z.shiftl_spec by lia.
  assert (T : Z.testbit 0xE000 n = (13 <=? n) && (n <? 16)).
  { change 0xE000 with (Z.shiftl (Z.ones 3) 13). rewrite Z.shiftl_spec by lia.
    destruct (Z.leb_spec 13 n).
    - destruct (Z.ltb_spec n 16); [rewrite Z.ones_spec_low by lia | rewrite Z.ones_spec_high by lia]; reflexivity.
    - rewrite Z.testbit_neg_r by lia. reflexivity. }
  rewrite T. destruct (Z.leb_spec 13 n).
  - rewrite Z.shiftr_spec by lia. replace (n - 13 + 13) with n by lia.
    destruct (Z.ltb_spec n 16); cbn [andb].
    + now rewrite andb_true_r.
    + rewrite andb_false_r. symmetry. rewrite <- (Z.mod_small a (2 ^ 16)) by lia. apply Z.mod_pow2_bits_high. lia.
  - rewrite andb_false_r. now rewrite Z.testbit_neg_r by lia.
Qed.

Section Memory.
Variables (rom : list Z) (kb : Z).

Record matches (h : list mop) (m : ralmem) : Prop := {
  mt_rom : forall i, 0 <= i < 0x2000 -> rm_rom m i = nth (Z.to_nat i) rom 255;
  mt_len : rm_ram1_len m = kb * 1024;
  mt_kb : 0 <= kb * 1024 <= 0xC000;
  mt_carts : rm_exroms m = cartridges h;
  mt_dup : NoDup (map rb_id (cartridges h));
  mt_sel : rm_select m = selected h;
  mt_selr : 0 <= selected h < 256;
  mt_is : rm_is_ram m = in_rom h;
  mt_ram0 : forall i, 0 <= i < 0x2000 -> rm_ram0 m i = kernel_page h (0x2000 + i);
  mt_ram1 : forall i, 0 <= i < kb * 1024 -> rm_ram1 m i = user_ram h (0x4000 + i);
  mt_bank : rm_bank1 m = if in_rom h then Some PRam0
    else option_map (fun x => PBox (rb_id x)) (nth_error (cartridges h) (Z.to_nat (selected h))) }.

Lemma find_box (l : list rombox) : NoDup (map rb_id l) -> forall n x, nth_error l n = Some x -> find (fun y => rb_id y =? rb_id x) l = Some x.
Proof.
  induction l as [|y l IH]; intros ND n x H.
  - destruct n; discriminate.
  - cbn [map] in ND. inversion ND as [|? ? N1 N2]; subst. destruct n as [|n]; cbn [nth_error] in H.
    + injection H as <-. cbn [find]. now rewrite Z.eqb_refl.
    + cbn [find]. destruct (Z.eqb_spec (rb_id y) (rb_id x)) as [E|E].
      * exfalso. apply N1. rewrite E. apply in_map. now apply nth_error_In with n.
      * now apply IH with n.
Qed.

Lemma matches_new m : 0 <= kb -> mem_new rom kb = Some m -> matches [] m.
Proof.
  intros K H. unfold mem_new, make_rom, MAXRAMSIZE, BANK2, ROMSIZE in H.
  destruct (Z.leb_spec (Z.of_nat (length rom)) 8192); [|discriminate].
  destruct (Z.leb_spec (kb * 1024) (65536 - 16384)); [|discriminate].
  injection H as <-. split; cbn; auto; try lia; try (now apply NoDup_nil).
  - intros i Hi. destruct (Z.ltb_spec i (Z.of_nat (length rom))).
    + apply nth_indep. lia.
    + symmetry. apply nth_overflow. lia.
Qed.

Lemma read_rom_ok h m a : matches h m -> 0 <= a < 0x2000 -> read_rom m a = view rom kb h a.
Proof.
  intros M Ha. unfold read_rom, view, BANK_MASK. rewrite land_mask, Z.mod_small by lia.
  rewrite (mt_rom _ _ M) by lia. destruct (Z.ltb_spec a 0x2000); [reflexivity|lia].
Qed.
Lemma bank1_ok h m : matches h m -> forall a, 0x2000 <= a < 0x4000 ->
  match rm_bank1 m with Some p => option_map (fun d => d (a - 0x2000)) (deref m p) | None => Some 255 end = Some (view rom kb h a).
Proof.
  intros M a Ha. unfold view. destruct (Z.ltb_spec a 0x2000); [lia|]. destruct (Z.ltb_spec a 0x4000); [|lia].
  rewrite (mt_bank _ _ M). destruct (in_rom h) eqn:I.
  - cbn [deref option_map]. f_equal. rewrite (mt_ram0 _ _ M) by lia. f_equal. lia.
  - unfold cartridge. destruct (nth_error _ _) as [x|] eqn:E; cbn [option_map]; [|reflexivity].
    unfold deref. rewrite (mt_carts _ _ M). rewrite (find_box _ (mt_dup _ _ M) _ _ E). reflexivity.
Qed.
Lemma read_bank1_ok h m a : matches h m -> 0x2000 <= a < 0x4000 -> read_bank1 m a = Some (view rom kb h a).
Proof.
  intros M Ha. unfold read_bank1, BANK_MASK. rewrite land_mask. replace (a mod 0x2000) with (a - 0x2000) by lia.
  now apply bank1_ok.
Qed.
Lemma read_ram1_ok h m a : matches h m -> 0x4000 <= a < 0x10000 -> read_ram1 m a = view rom kb h a.
Proof.
  intros M Ha. unfold read_ram1, view, BANK2, u16.
  destruct (Z.ltb_spec a 0x2000); [lia|]. destruct (Z.ltb_spec a 0x4000); [lia|].
  replace ((a - 0x4000) mod 65536) with (a - 0x4000) by lia. rewrite (mt_len _ _ M).
  destruct (Z.ltb_spec (a - 0x4000) (kb * 1024)), (Z.ltb_spec a (0x4000 + kb * 1024)); try lia.
  rewrite (mt_ram1 _ _ M) by lia. f_equal. lia.
Qed.
Ltac bank a := unfold BANK_SELECT, BANK0, BANK1 in *; rewrite (land_select a) in * by lia.
Lemma read_debug_ok h m a : matches h m -> 0 <= a < 0x10000 -> m_read_debug m a = Some (view rom kb h a).
Proof.
  intros M Ha. unfold m_read_debug. cbv zeta. bank a.
  destruct (Z.eqb_spec (a / 0x2000 * 0x2000) 0).
  { f_equal. apply read_rom_ok; [assumption|lia]. }
  destruct (Z.eqb_spec (a / 0x2000 * 0x2000) 0x2000).
  { apply read_bank1_ok; [assumption|lia]. }
  f_equal. apply read_ram1_ok; [assumption|lia].
Qed.
Lemma read_mem16_ok h m a : matches h m -> 0 <= a < 0x10000 ->
  m_read_mem16 m a = Some (view rom kb h a + 256 * view rom kb h ((a + 1) mod 0x10000)).
Proof.
  intros M Ha. unfold m_read_mem16, from_le, read_unaligned16. cbv zeta.
  change (Z.lor BANK1 BANK_MASK) with 0x3FFF. bank a. unfold BANK_MASK, BANK2.
  pose proof (mt_kb _ _ M) as KB. pose proof (mt_len _ _ M) as LEN.
  destruct (Z.eqb_spec (a / 0x2000 * 0x2000) 0).
  { destruct (Z.eqb_spec a 0x1FFF) as [->|N]; cbn [negb].
    - rewrite (read_rom_ok h) by (assumption || lia). rewrite (read_bank1_ok h) by (assumption || lia). reflexivity.
    - rewrite (Z.mod_small (a + 1)) by lia. rewrite <- !(read_rom_ok h m) by (assumption || lia). unfold read_rom, BANK_MASK.
      rewrite !land_mask, !Z.mod_small by lia. reflexivity. }
  destruct (Z.eqb_spec (a / 0x2000 * 0x2000) 0x2000).
  { destruct (Z.eqb_spec a 0x3FFF) as [->|N]; cbn [negb].
    - rewrite (read_bank1_ok h) by (assumption || lia). rewrite (read_ram1_ok h) by (assumption || lia). reflexivity.
    - rewrite land_mask. replace (a mod 0x2000) with (a - 0x2000) by lia. rewrite (Z.mod_small (a + 1)) by lia.
      pose proof (bank1_ok h m M a ltac:(lia)) as B0. pose proof (bank1_ok h m M (a + 1) ltac:(lia)) as B1.
      destruct (rm_bank1 m) as [p|].
      + destruct (deref m p) as [d|]; [|discriminate]. cbn [option_map] in *. injection B0 as <-. injection B1 as <-.
        f_equal. replace (a - 8192 + 1) with (a + 1 - 8192) by lia. reflexivity.
      + injection B0 as <-. injection B1 as <-. reflexivity. }
  destruct (Z.ltb_spec (a - 0x4000 + 1) (rm_ram1_len m)).
  - rewrite LEN in *. rewrite (Z.mod_small (a + 1)) by lia. rewrite <- !(read_ram1_ok h m) by (assumption || lia).
    unfold read_ram1, BANK2, u16. rewrite LEN. replace ((a - 16384) mod 65536) with (a - 16384) by lia.
    replace ((a + 1 - 16384) mod 65536) with (a - 16384 + 1) by lia.
    destruct (Z.ltb_spec (a - 16384) (kb * 1024)); [|lia]. destruct (Z.ltb_spec (a - 16384 + 1) (kb * 1024)); [|lia]. reflexivity.
  - rewrite (read_ram1_ok h) by (assumption || lia). destruct (Z.eqb_spec a 65535) as [->|N].
    + rewrite (read_rom_ok h) by (assumption || lia). reflexivity.
    + rewrite (Z.mod_small (a + 1)) by lia. do 3 f_equal. unfold view.
      destruct (Z.ltb_spec (a + 1) 0x2000); [lia|]. destruct (Z.ltb_spec (a + 1) 0x4000); [lia|].
      destruct (Z.ltb_spec (a + 1) (0x4000 + kb * 1024)); [lia|]. reflexivity.
Qed.

Ltac fld := cbn [rm_rom rm_bank1 rm_ram0 rm_ram1 rm_ram1_len rm_exroms rm_select rm_is_ram set_bank1 set_exroms set_select set_is_ram set_ram0 set_ram1
  cartridges selected in_rom kernel_page user_ram].
Lemma exrom_ok m h h' : matches h m -> in_rom h' = false -> cartridges h' = cartridges h -> selected h' = selected h ->
  (forall a, kernel_page h' a = kernel_page h a) -> (forall a, user_ram h' a = user_ram h a) -> matches h' (exrom_to_bank1 m).
Proof.
  intros M I C S K U. unfold exrom_to_bank1. cbn [rm_exroms set_is_ram rm_select].
  destruct (nth_error (rm_exroms m) (Z.to_nat (rm_select m))) as [x|] eqn:E; rewrite (mt_carts _ _ M), (mt_sel _ _ M) in E;
    split; fld; rewrite ?I, ?C, ?S, ?E; try (destruct M; assumption || reflexivity || congruence); intros; rewrite ?K, ?U; ((apply (mt_ram0 _ _ M); assumption) || (apply (mt_ram1 _ _ M); assumption)).
Qed.

Lemma mem_op_ok h m o : matches h m -> allowed h o -> exists m', mem_op o m = Some (m', answer rom kb h o) /\ matches (o :: h) m'.
Proof.
  intros M A. destruct o as [pc|a|a|a v|n| |x|]; cbn [mem_op allowed answer] in *.
  - unfold m_read_opcode. cbv zeta. bank pc.
    destruct (Z.eqb_spec (pc / 0x2000 * 0x2000) 0).
    + assert (M' : matches (MFetch pc :: h) (if rm_is_ram m then m else set_bank1 (Some PRam0) (set_is_ram true m))).
      { rewrite (mt_is _ _ M). pose proof (mt_bank _ _ M) as B. pose proof (mt_is _ _ M) as IR. destruct (in_rom h) eqn:I; split; fld; try (destruct M; assumption || reflexivity || congruence).
        - rewrite IR. symmetry. apply Z.ltb_lt. lia.
        - rewrite B. destruct (Z.ltb_spec pc 0x2000); [reflexivity|lia].
        - symmetry. apply Z.ltb_lt. lia.
        - destruct (Z.ltb_spec pc 0x2000); [reflexivity|lia]. }
      eexists. split; [|exact M']. do 2 f_equal. apply read_rom_ok; [assumption|lia].
    + assert (M' : matches (MFetch pc :: h) (if rm_is_ram m then exrom_to_bank1 m else m)).
      { assert (I' : in_rom (MFetch pc :: h) = false) by (cbn; apply Z.ltb_ge; lia).
        rewrite (mt_is _ _ M). pose proof (mt_bank _ _ M) as B. pose proof (mt_is _ _ M) as IR. destruct (in_rom h) eqn:I.
        - now apply exrom_ok with h.
        - split; rewrite ?I'; fld; try (destruct M; assumption || reflexivity || congruence). }
      destruct (Z.eqb_spec (pc / 0x2000 * 0x2000) 0x2000).
      * rewrite (read_bank1_ok _ _ _ M') by lia. eexists. split; [reflexivity|exact M'].
      * eexists. split; [|exact M']. do 2 f_equal. apply read_ram1_ok; [assumption|lia].
  - unfold m_read_mem. rewrite (read_debug_ok h) by assumption. eexists. split; [reflexivity|]. destruct M; split; fld; assumption.
  - rewrite (read_mem16_ok h) by assumption. eexists. split; [reflexivity|]. destruct M; split; fld; assumption.
  - eexists. split; [reflexivity|]. unfold m_write_mem. cbv zeta. bank a.
    pose proof (mt_is _ _ M) as IR.
    destruct (Z.eqb_spec (a / 0x2000 * 0x2000) 0).
    { pose proof (mt_kb _ _ M). split; fld; try (destruct M; assumption || reflexivity || congruence).
      - intros i Hi. destruct (Z.eqb_spec a (8192 + i)); [lia|]. rewrite andb_false_r. now apply (mt_ram0 _ _ M).
      - intros i Hi. destruct (Z.eqb_spec a (16384 + i)); [lia|]. now apply (mt_ram1 _ _ M). }
    destruct (Z.eqb_spec (a / 0x2000 * 0x2000) 0x2000).
    { rewrite IR. destruct (in_rom h) eqn:I; split; fld; try (destruct M; assumption || reflexivity || congruence); rewrite ?I; try (destruct M; assumption || reflexivity).
      - unfold aset, BANK_MASK. intros i Hi. rewrite land_mask. cbn [andb].
        destruct (Z.eqb_spec i (a mod 8192)), (Z.eqb_spec a (8192 + i)); try lia. now apply (mt_ram0 _ _ M).
      - intros i Hi. destruct (Z.eqb_spec a (16384 + i)); [lia|]. now apply (mt_ram1 _ _ M).
      - intros i Hi. destruct (Z.eqb_spec a (16384 + i)); [lia|]. now apply (mt_ram1 _ _ M). }
    unfold BANK2, u16. replace ((a - 16384) mod 65536) with (a - 16384) by lia. rewrite (mt_len _ _ M).
    destruct (Z.ltb_spec (a - 16384) (kb * 1024)); split; fld; try (destruct M; assumption || reflexivity || congruence).
    + intros i Hi. destruct (Z.eqb_spec a (8192 + i)); [lia|]. rewrite andb_false_r. now apply (mt_ram0 _ _ M).
    + unfold aset. intros i Hi. destruct (Z.eqb_spec i (a - 16384)), (Z.eqb_spec a (16384 + i)); try lia. now apply (mt_ram1 _ _ M).
    + intros i Hi. destruct (Z.eqb_spec a (8192 + i)); [lia|]. rewrite andb_false_r. now apply (mt_ram0 _ _ M).
    + intros i Hi. destruct (Z.eqb_spec a (16384 + i)); [lia|]. now apply (mt_ram1 _ _ M).
  - eexists. split; [reflexivity|]. unfold write_ctrl. rewrite (mt_sel _ _ M). destruct (Z.eqb_spec (selected h) n) as [E|E].
    { subst n. destruct M; split; fld; assumption. }
    cbv zeta. cbn [rm_is_ram set_select]. rewrite (mt_is _ _ M). destruct (in_rom h) eqn:I.
    { pose proof (mt_bank _ _ M) as B. rewrite I in B. split; fld; rewrite ?I; try (destruct M; assumption || reflexivity || congruence). }
    unfold exrom_to_bank1. fld. rewrite (mt_carts _ _ M).
    destruct (nth_error (cartridges h) (Z.to_nat n)) as [x|] eqn:N; split; fld; rewrite ?I, ?N; destruct M; assumption || reflexivity || congruence.
  - eexists. split; [unfold read_ctrl; now rewrite (mt_sel _ _ M)|]. destruct M; split; fld; assumption.
  - destruct A as [A1 A2]. unfold attach_exrom, free_exrom_slots. rewrite (mt_carts _ _ M).
    destruct (Z.eqb_spec (256 - Z.of_nat (length (cartridges h))) 0); [lia|]. cbv zeta.
    assert (ND : NoDup (map rb_id (cartridges h ++ [x]))).
    { rewrite map_app. apply NoDup_rev in A1 || idtac. rewrite <- (rev_involutive (map rb_id (cartridges h) ++ _)). apply NoDup_rev.
      rewrite rev_app_distr. cbn. constructor; [now rewrite <- in_rev|]. apply NoDup_rev, (mt_dup _ _ M). }
    cbn [rm_is_ram set_exroms]. rewrite (mt_is _ _ M). destruct (in_rom h) eqn:I.
    + eexists. split.
      * cbn [rm_exroms set_exroms]. rewrite app_length. cbn [length]. do 2 f_equal. lia.
      * pose proof (mt_bank _ _ M) as B. rewrite I in B. split; fld; rewrite ?I; try (destruct M; assumption || reflexivity || congruence).
    + unfold exrom_to_bank1. fld. rewrite (mt_sel _ _ M). eexists. split.
      * do 2 f_equal. destruct (nth_error _ _); cbn; rewrite app_length; cbn; lia.
      * destruct (nth_error (cartridges h ++ [x]) (Z.to_nat (selected h))) as [y|] eqn:N; split; fld; rewrite ?I, ?N; try (destruct M; assumption || reflexivity || congruence).
  - unfold eject_exroms. rewrite (mt_is _ _ M). pose proof (mt_bank _ _ M) as B. destruct (in_rom h) eqn:I; eexists; (split; [fld; now rewrite (mt_carts _ _ M)|]);
      split; fld; rewrite ?I; try apply NoDup_nil; try (destruct M; assumption || reflexivity || congruence).
    now destruct (Z.to_nat (selected h)).
Qed.

Lemma mem_run_ok l : forall h m, matches h m -> all_allowed h l ->
  exists m', mem_run l m = Some (m', answers rom kb h l) /\ matches (rev l ++ h) m'.
Proof.
  induction l as [|o l IH]; intros h m M A.
  - exists m. split; [reflexivity|exact M].
  - destruct A as [A1 A2]. destruct (mem_op_ok h m o M A1) as (m1 & E1 & M1). destruct (IH _ _ M1 A2) as (m2 & E2 & M2).
    exists m2. cbn [mem_run answers]. rewrite E1, E2. split; [reflexivity|]. cbn [rev]. rewrite <- app_assoc. exact M2.
Qed.

(** More cartridges than there is room for are left out. *)
Lemma attach_all_ok l : forall h m, matches h m -> NoDup (map rb_id (cartridges h ++ l)) -> (length (cartridges h ++ l) <= 256)%nat ->
  exists m', attach_all l m = Some m' /\ matches (rev (map MInsert l) ++ h) m'.
Proof.
  induction l as [|x l IH]; intros h m M ND L.
  - exists m. now split.
  - rewrite app_length in L. cbn [length] in L.
    assert (ND1 : ~ In (rb_id x) (map rb_id (cartridges h))).
    { rewrite map_app in ND. cbn [map] in ND. apply NoDup_remove_2 in ND. intro. apply ND. apply in_or_app. now left. }
    destruct (mem_op_ok h m (MInsert x) M) as (m1 & E1 & M1). { cbn. split; [assumption|lia]. }
    destruct (IH _ _ M1) as (m2 & E2 & M2).
    { cbn [cartridges]. now rewrite <- app_assoc. } { cbn [cartridges]. rewrite !app_length. cbn [length]. lia. }
    exists m2. cbn [attach_all]. cbn [mem_op] in E1. rewrite E1. split; [assumption|]. cbn [map rev]. rewrite <- app_assoc. exact M2.
Qed.
End Memory.

Lemma make_rom_none rom : make_rom rom = None <-> 0x2000 < Z.of_nat (length rom).
Proof. unfold make_rom, ROMSIZE. destruct (Z.leb_spec (Z.of_nat (length rom)) 8192); split; intro; try discriminate; try lia; reflexivity. Qed.
Lemma mem_new_some rom kb : Z.of_nat (length rom) <= 0x2000 -> kb <= 48 -> exists m, mem_new rom kb = Some m.
Proof.
  intros. unfold mem_new, make_rom, MAXRAMSIZE, ROMSIZE, BANK2. destruct (Z.leb_spec (Z.of_nat (length rom)) 8192); [|lia].
  destruct (Z.leb_spec (kb * 1024) (65536 - 16384)); [|lia]. eexists. reflexivity.
Qed.
