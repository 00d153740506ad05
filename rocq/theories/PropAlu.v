(** Properties C02-C06: the arithmetic/logic unit (ops.rs) meets the integer specification [SpecAlu]. *)
From Coq Require Import ZArith Bool List Lia.
From Verif Require Import Base Flags Ops SpecAlu AluProofs Alu16Proofs.
Import ListNotations.
Open Scope Z_scope.

(** ** C02 *)
Theorem C02_add : forall a v f, byte a -> byte v -> Ops.add a v f = s_add a v false.
Proof. exact add_ok. Qed.
Theorem C02_adc : forall a v f, byte a -> byte v -> byte f -> Ops.adc a v f = s_add a v (Cf f).
Proof. exact adc_ok. Qed.
Theorem C02_sub : forall a v f, byte a -> byte v -> Ops.sub a v f = s_sub a v false.
Proof. exact sub_ok. Qed.
Theorem C02_sbc : forall a v f, byte a -> byte v -> byte f -> Ops.sbc a v f = s_sub a v (Cf f).
Proof. exact sbc_ok. Qed.
Theorem C02_cp : forall a v f, byte a -> byte v -> Ops.cp a v f = s_cp a v.
Proof. exact cp_ok. Qed.
Example C02_ex1 : Ops.adc 0x7F 0x00 0x01 = (0x80, 0x94).   (* 127 + 0 + 1 overflows: S, H, P/V *)
Proof. reflexivity. Qed.
Example C02_ex2 : s_sub 0x10 0x20 true = (0xEF, 0xBB) /\ Ops.sbc 0x10 0x20 0xFF = (0xEF, 0xBB).
Proof. split; reflexivity. Qed.
Print Assumptions C02_add. Print Assumptions C02_adc. Print Assumptions C02_sub.
Print Assumptions C02_sbc. Print Assumptions C02_cp.

(** ** C03 *)
Theorem C03_and : forall a v f, byte a -> byte v -> Ops.and8 a v f = s_and a v.
Proof. exact and_ok. Qed.
Theorem C03_or : forall a v f, byte a -> byte v -> Ops.or8 a v f = s_or a v.
Proof. exact or_ok. Qed.
Theorem C03_xor : forall a v f, byte a -> byte v -> Ops.xor8 a v f = s_xor a v.
Proof. exact xor_ok. Qed.
Theorem C03_inc : forall v f, byte v -> byte f -> Ops.inc v f = s_inc v f.
Proof. exact inc_ok. Qed.
Theorem C03_dec : forall v f, byte v -> byte f -> Ops.dec v f = s_dec v f.
Proof. exact dec_ok. Qed.
Theorem C03_neg : forall a f, byte a -> Ops.neg a f = s_neg a.
Proof. exact neg_ok. Qed.
Theorem C03_cpl : forall a f, byte a -> byte f -> Ops.cpl a f = s_cpl a f.
Proof. exact cpl_ok. Qed.
Theorem C03_scf : forall q f, byte q -> byte f -> Ops.scf q f = s_scf q f.
Proof. exact scf_ok. Qed.
Theorem C03_ccf : forall q f, byte q -> byte f -> Ops.ccf q f = s_ccf q f.
Proof. exact ccf_ok. Qed.
Theorem C03_in : forall v f, byte v -> byte f -> Ops.io v f = s_in v f.
Proof. exact io_ok. Qed.
Theorem C03_ld_a_ir : forall v pv f, byte v -> byte f -> Ops.ld_a_ir v pv f = s_ld_a_ir v pv f.
Proof. exact ld_a_ir_ok. Qed.
Theorem C03_ldx : forall a v z f, byte a -> byte v -> byte f -> Ops.ldx a v z f = s_ldx a v z f.
Proof. exact ldx_ok. Qed.
Theorem C03_cpx : forall a v z f, byte a -> byte v -> byte f ->
  Ops.cpx a v z f = (z || (a =? v), s_cpx a v z f).
Proof. exact cpx_ok. Qed.
Theorem C03_iox : forall v b m f, byte v -> byte b -> byte m -> Ops.iox v b m f = s_iox v b m.
Proof. exact iox_ok. Qed.
Example C03_ex1 : Ops.inc 0x7F 0x01 = (0x80, 0x95) /\ Ops.ccf 0x28 0xD7 = 0xFC.
Proof. split; reflexivity. Qed.
Example C03_ex2 : Ops.cpx 0x3B 0x3B false 0x00 = (true, 0x46) /\ Ops.iox 0xFF 0x01 0x02 0 = 0x17.
Proof. split; reflexivity. Qed.
Print Assumptions C03_and. Print Assumptions C03_or. Print Assumptions C03_xor.
Print Assumptions C03_inc. Print Assumptions C03_dec. Print Assumptions C03_neg.
Print Assumptions C03_cpl. Print Assumptions C03_scf. Print Assumptions C03_ccf.
Print Assumptions C03_in. Print Assumptions C03_ld_a_ir. Print Assumptions C03_ldx.
Print Assumptions C03_cpx. Print Assumptions C03_iox.

(** ** C04 *)
(** DAA never reaches one of its unreachable arms and follows the published rule. *)
Theorem C04_daa_rule : forall a f, byte a -> byte f -> Ops.daa a f = Some (s_daa a f).
Proof. exact daa_ok. Qed.
Theorem C04_adc_daa : forall a b f, is_bcd a = true -> is_bcd b = true -> byte f ->
  exists fl, Ops.daa (fst (Ops.adc a b f)) (snd (Ops.adc a b f)) =
    Some (bcd_of ((bcd_val a + bcd_val b + bz (Cf f)) mod 100), fl) /\
    Cf fl = (100 <=? bcd_val a + bcd_val b + bz (Cf f)).
Proof. exact bcd_adc. Qed.
Theorem C04_sbc_daa : forall a b f, is_bcd a = true -> is_bcd b = true -> byte f ->
  exists fl, Ops.daa (fst (Ops.sbc a b f)) (snd (Ops.sbc a b f)) =
    Some (bcd_of ((bcd_val a - bcd_val b - bz (Cf f)) mod 100), fl) /\
    Cf fl = (bcd_val a - bcd_val b - bz (Cf f) <? 0).
Proof. exact bcd_sbc. Qed.
(** ADD and SUB are covered by the same theorems: they are ADC and SBC with carry clear. *)
Theorem C04_add_as_adc : forall a b f, byte a -> byte b -> Ops.add a b f = Ops.adc a b 0.
Proof. exact add_adc. Qed.
Theorem C04_sub_as_sbc : forall a b f, byte a -> byte b -> Ops.sub a b f = Ops.sbc a b 0.
Proof. exact sub_sbc. Qed.
Example C04_ex1 : let x := Ops.adc 0x58 0x46 1 in Ops.daa (fst x) (snd x) = Some (0x05, 0x15).
Proof. reflexivity. Qed.
Example C04_ex2 : is_bcd 0x58 = true /\ is_bcd 0x46 = true /\ bcd_val 0x58 + bcd_val 0x46 + 1 = 105.
Proof. repeat split. Qed.
Example C04_ex3 : let x := Ops.sbc 0x12 0x34 0 in Ops.daa (fst x) (snd x) = Some (0x78, 0x2F).
Proof. reflexivity. Qed.
Print Assumptions C04_daa_rule. Print Assumptions C04_adc_daa. Print Assumptions C04_sbc_daa.
Print Assumptions C04_add_as_adc. Print Assumptions C04_sub_as_sbc.

(** ** C05 *)
Theorem C05_rlc : forall v f, byte v -> Ops.rlc v f = s_rlc v.
Proof. exact rlc_ok. Qed.
Theorem C05_rrc : forall v f, byte v -> Ops.rrc v f = s_rrc v.
Proof. exact rrc_ok. Qed.
Theorem C05_rl : forall v f, byte v -> byte f -> Ops.rl v f = s_rl v f.
Proof. exact rl_ok. Qed.
Theorem C05_rr : forall v f, byte v -> byte f -> Ops.rr v f = s_rr v f.
Proof. exact rr_ok. Qed.
Theorem C05_sla : forall v f, byte v -> Ops.sla v f = s_sla v.
Proof. exact sla_ok. Qed.
Theorem C05_sra : forall v f, byte v -> Ops.sra v f = s_sra v.
Proof. exact sra_ok. Qed.
Theorem C05_sll : forall v f, byte v -> Ops.sll v f = s_sll v.
Proof. exact sll_ok. Qed.
Theorem C05_srl : forall v f, byte v -> Ops.srl v f = s_srl v.
Proof. exact srl_ok. Qed.
Theorem C05_rlca : forall v f, byte v -> byte f -> Ops.rlca v f = s_rlca v f.
Proof. exact rlca_ok. Qed.
Theorem C05_rrca : forall v f, byte v -> byte f -> Ops.rrca v f = s_rrca v f.
Proof. exact rrca_ok. Qed.
Theorem C05_rla : forall v f, byte v -> byte f -> Ops.rla v f = s_rla v f.
Proof. exact rla_ok. Qed.
Theorem C05_rra : forall v f, byte v -> byte f -> Ops.rra v f = s_rra v f.
Proof. exact rra_ok. Qed.
Theorem C05_rld : forall a m f, byte a -> byte m -> byte f -> Ops.rld a m f = s_rld a m f.
Proof. exact rld_ok. Qed.
Theorem C05_rrd : forall a m f, byte a -> byte m -> byte f -> Ops.rrd a m f = s_rrd a m f.
Proof. exact rrd_ok. Qed.
Theorem C05_rrd_undoes_rld : forall a m f, byte a -> byte m -> byte f ->
  let x := fst (Ops.rld a m f) in
  forall f', byte f' -> fst (Ops.rrd (fst x) (snd x) f') = (a, m).
Proof. exact rld_rrd. Qed.
Theorem C05_rld_undoes_rrd : forall a m f, byte a -> byte m -> byte f ->
  let x := fst (Ops.rrd a m f) in
  forall f', byte f' -> fst (Ops.rld (fst x) (snd x) f') = (a, m).
Proof. exact rrd_rld. Qed.
Theorem C05_bit : forall n v f, 0 <= n < 8 -> byte v -> byte f -> Ops.bit n v f = s_bit n v v f.
Proof. exact bit_ok. Qed.
Theorem C05_bit_mp : forall n v xy f, 0 <= n < 8 -> byte v -> byte xy -> byte f ->
  Ops.bit_mp n v xy f = s_bit n v xy f.
Proof. exact bit_mp_ok. Qed.
Theorem C05_res : forall n v, 0 <= n < 8 -> byte v -> Ops.res n v = s_res n v.
Proof. exact res_ok. Qed.
Theorem C05_set : forall n v, 0 <= n < 8 -> byte v -> Ops.set n v = s_set n v.
Proof. exact set_ok. Qed.
Example C05_ex1 : Ops.rl 0x8F 0x00 = (0x1E, 0x0D) /\ Ops.sra 0xB9 0 = (0xDC, 0x89).
Proof. split; reflexivity. Qed.
Example C05_ex2 : fst (Ops.rld 0x7A 0x31 0) = (0x73, 0x1A) /\ fst (Ops.rrd 0x73 0x1A 0) = (0x7A, 0x31).
Proof. split; reflexivity. Qed.
Example C05_ex3 : Ops.bit 7 0x80 0x01 = 0x91 /\ Ops.res 3 0xFF = 0xF7 /\ Ops.set 6 0x01 = 0x41.
Proof. repeat split. Qed.
Print Assumptions C05_rlc. Print Assumptions C05_rrc. Print Assumptions C05_rl. Print Assumptions C05_rr.
Print Assumptions C05_sla. Print Assumptions C05_sra. Print Assumptions C05_sll. Print Assumptions C05_srl.
Print Assumptions C05_rlca. Print Assumptions C05_rrca. Print Assumptions C05_rla. Print Assumptions C05_rra.
Print Assumptions C05_rld. Print Assumptions C05_rrd. Print Assumptions C05_rrd_undoes_rld.
Print Assumptions C05_rld_undoes_rrd. Print Assumptions C05_bit. Print Assumptions C05_bit_mp.
Print Assumptions C05_res. Print Assumptions C05_set.

(** ** C06 *)
Theorem C06_add16 : forall x y f, word x -> word y -> byte f -> Ops.add16 x y f = s_add16 x y f.
Proof. exact add16_ok. Qed.
Theorem C06_adc16 : forall x y f, word x -> word y -> byte f -> Ops.adc16 x y f = s_adc16 x y (Cf f).
Proof. exact adc16_ok. Qed.
Theorem C06_sbc16 : forall x y f, word x -> word y -> byte f -> Ops.sbc16 x y f = s_sbc16 x y (Cf f).
Proof. exact sbc16_ok. Qed.
Example C06_ex1 : Ops.add16 0x0FFF 0x0001 0xC4 = (0x1000, 0xD4).
Proof. reflexivity. Qed.
Example C06_ex2 : Ops.sbc16 0x8000 0x0000 0x01 = (0x7FFF, 0x3E).
Proof. reflexivity. Qed.
Print Assumptions C06_add16. Print Assumptions C06_adc16. Print Assumptions C06_sbc16.
