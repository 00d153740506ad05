(** Relating the model to the specification [SpecIsa]: abstraction of the state, projections of the execution
    log, and the decoders. *)
From Coq Require Import ZArith Bool List Lia ZifyBool.
From Verif Require Import Base Flags Ops Parse Cpu Flavours Prog Trace Internal Instr Exec Decode Range AluProofs
  SpecAlu SpecState SpecIsa Accessors.
Import ListNotations.
Open Scope Z_scope.
Ltac Zify.zify_post_hook ::= Z.div_mod_to_equations.

(** ** State *)
Definition abs {Q T} (absq : Q -> T) (c : cpu Q) : arch T :=
  mkArch (get_acc c) (get_flags c) (bc c) (de c) (hl c) (af_alt c) (bc_alt c) (de_alt c) (hl_alt c)
         (ix c) (iy c) (sp c) (pc c) (memptr c) (get_i c) (get_r c) (im c) (iff1 c) (iff2 c) (halt c)
         (last_ei c) (prefix c) (absq (flavour c)).
(** The state inside an instruction. *)
Definition abs_st {Q T} (absq : Q -> T) (s : st) : arch T :=
  let c := sc s in
  mkArch (get_acc c) (sfl s) (bc c) (de c) (hl c) (af_alt c) (bc_alt c) (de_alt c) (hl_alt c)
         (ix c) (iy c) (sp c) (spc s) (memptr c) (get_i c) (get_r c) (im c) (iff1 c) (iff2 c) (halt c)
         (last_ei c) (spx s) (absq (flavour c)).
Lemma abs_load {Q T} (absq : Q -> T) c : abs_st absq (load_st c) = abs absq c.
Proof. reflexivity. Qed.
Lemma abs_store {Q T} (absq : Q -> T) s : byte (sfl s) -> abs absq (store_st s) = abs_st absq s.
Proof.
  intros H. unfold abs, abs_st, store_st, get_acc, get_flags, set_flags, set8lo.
  cbn [af set_prefix set_pc set_af]. rewrite hi_mk, lo_mk by assumption. reflexivity.
Qed.

(** [FL] behaves as chip [ch], [absq] giving the chip's memory of the previous instruction. *)
Record chip_ok {Q T} (FL : Flavour Q) (ch : chip T) (absq : Q -> T) : Prop := mkChipOk {
  ok_out0 : u8 (constant_out_data FL) = c_out0 ch;
  ok_bug : accept_irq_early FL = c_iff2_bug ch;
  ok_wz : forall a l, byte a -> byte l ->
    mk16 (u8 (fst (memptr_mix FL a l))) (u8 (snd (memptr_mix FL a l))) = c_wz ch a l;
  ok_begin : forall q, absq (begin_instruction FL q) = c_begin ch (absq q);
  ok_touch : forall q, absq (flags_modified FL q) = c_touch ch (absq q);
  ok_q : forall q a f, byte a -> byte f ->
    get_q FL (begin_instruction FL q) a f = c_q ch (absq q) a f;
  ok_q_byte : forall q a f, byte a -> byte f -> byte (c_q ch q a f) }.

Lemma nmos_ok : chip_ok NMOS nmos q_modified.
Proof.
  constructor; try reflexivity.
  - intros a l Ha Hl. cbn [NMOS memptr_mix fst snd nmos c_wz nmos_wz].
    unfold u8, mk16, nmos_wz, byte in *. lia.
  - intros q a f Ha Hff. cbn. unfold q_get_q, q_begin, q_scf. cbn. destruct (q_modified q); [reflexivity|].
    apply lor_bits; assumption.
  - intros q a f Ha Hff. cbn [nmos c_q]. unfold q_scf. destruct q; [assumption|apply of_bits_range].
Qed.
Lemma bm1_ok : chip_ok BM1 bm1 q_modified.
Proof.
  constructor; try reflexivity.
  - intros a l Ha Hl. cbn [BM1 memptr_mix fst snd bm1 c_wz].
    unfold u8, mk16, byte in *. change (0 mod 256) with 0. lia.
  - intros q a f Ha Hff. cbn. unfold q_get_q, q_begin, q_scf. cbn. destruct (q_modified q); [reflexivity|].
    apply lor_bits; assumption.
  - intros q a f Ha Hff. cbn [bm1 c_q]. unfold q_scf. destruct q; [assumption|apply of_bits_range].
Qed.
Lemma cmos_ok : chip_ok CMOS cmos (fun u => u).
Proof.
  constructor; try reflexivity.
  - intros a l Ha Hl. cbn [CMOS memptr_mix fst snd cmos c_wz].
    unfold u8, mk16, nmos_wz, byte in *. lia.
  - intros q a f Ha Hff. exact Ha.
Qed.

(** ** Log *)
Section Log.
Context {TS WB RB : Type}.
Definition bus1 (e : ev TS WB RB) : list (bev WB RB) :=
  match e with
  | EOp a i _ v => [VOp a i v]
  | ERd a _ v => [VRd a v]
  | ERd16 a _ v => [VRd a (v mod 256); VRd ((a + 1) mod 65536) (v / 256)]
  | EWr a v _ => [VWr a v]
  | EIn p _ v w => [VIn p v w]
  | EOut p v _ b w => [VOut p v b w]
  | EIsIrq _ b => [VIrq b]
  | EReti a _ b => [VReti a b]
  | EIrqData a _ v w => [VAck a v w]
  | _ => []
  end.
Definition clk1 (e : ev TS WB RB) : list tev :=
  match e with
  | KM1 a _ => [TM1 a] | KMreq a _ => [TMreq a] | KNoMreq a n => [TX a n]
  | KIo a _ => [TIo a] | KWait a n => [TWait a n] | KIrq a _ => [TAck a]
  | _ => []
  end.
Definition buses (l : list (ev TS WB RB)) : list (bev WB RB) := flat_map bus1 l.
Definition clocks (l : list (ev TS WB RB)) : list tev := flat_map clk1 l.
End Log.

(** ** How an instruction ends *)
Definition reason_of {WB RB} (o : outcome WB RB) : option (exit_reason WB RB) :=
  match o with
  | ONext => None | OHalt => Some Halt | OEI => Some EnableInt
  | OOut w => Some (WriteIoR w) | OReti r => Some (RetiR r)
  end.
Definition result_of {WB RB} (o : outcome WB RB) : result WB RB :=
  match o with
  | ONext | OEI => None | OHalt => Some BHalt | OOut w => Some (BWriteIo w) | OReti r => Some (BReti r)
  end.
Lemma result_reason {WB RB} (o : outcome WB RB) : to_result (reason_of o) = result_of o.
Proof. destruct o; reflexivity. Qed.

(** ** Decoders *)
Definition link_none (c : Z) : instr :=
  match decode_none c with
  | M_LD_r_r => match reg8_b5_3 c, reg8_b2_0 c with
      | Some d, Some s => I_LD_rr d s | Some d, None => I_LD_rm d
      | None, Some s => I_LD_mr s | None, None => I_HALT end
  | M_OPS_r => match reg8_b2_0 c with Some s => I_ALU_r (ops8_from c) s | None => I_ALU_m (ops8_from c) end
  | M_CB => I_CB | M_PFX p => I_PFX p | M_ED => I_ED
  | M_NOP => I_NOP | M_DAA => I_ACC O_DAA | M_CPL => I_ACC O_CPL | M_CCF => I_CCF | M_SCF => I_SCF
  | M_DI => I_DI | M_EI => I_EI | M_EX_AF => I_EX_AF | M_EX_DE_HL => I_EX_DE_HL | M_EXX => I_EXX
  | M_LD_r_n => match reg8_b5_3 c with Some d => I_LD_rn d | None => I_LD_mn end
  | M_LD_A_rp b => I_LD_A_rp (if b then BC else DE) | M_LD_A_nn => I_LD_A_nn
  | M_LD_rp_A b => I_LD_rp_A (if b then BC else DE) | M_LD_nn_A => I_LD_nn_A
  | M_LD_dd_nn => I_LD_rp_nn (reg16_from c) | M_LD_nn_HL => I_LD_mem_HL | M_LD_HL_nn => I_LD_HL_mem
  | M_LD_SP_HL => I_LD_SP_HL | M_PUSH => I_PUSH (stkreg16_from c) | M_POP => I_POP (stkreg16_from c)
  | M_EX_SP_HL => I_EX_SP | M_OPS_n => I_ALU_n (ops8_from c)
  | M_INC8 => I_INC8 (reg8_b5_3 c) | M_DEC8 => I_DEC8 (reg8_b5_3 c) | M_ADD_HL => I_ADD16 (reg16_from c)
  | M_INC16 => I_INC16 (reg16_from c) | M_DEC16 => I_DEC16 (reg16_from c)
  | M_RLCA => I_ACC O_RLCA | M_RLA => I_ACC O_RLA | M_RRCA => I_ACC O_RRCA | M_RRA => I_ACC O_RRA
  | M_JP => I_JP | M_JP_cc => I_JPcc (cond_from c) | M_JP_HL => I_JP_HL | M_JR => I_JR
  | M_JR_cc => I_JRcc (cond_from_jr_subset c) | M_DJNZ => I_DJNZ
  | M_CALL => I_CALL | M_CALL_cc => I_CALLcc (cond_from c) | M_RET => I_RET | M_RET_cc => I_RETcc (cond_from c)
  | M_RST => I_RST (parse_restart_address c) | M_IN_A_n => I_IN_A | M_OUT_n_A => I_OUT_A
  | M_NONE => I_NOP
  end.
Definition link_pfx (c : Z) : instr :=
  match decode_pfx c with
  | P_IGNORE | P_NONE => link_none c
  | P_LD_q_q => match reg8_b5_3 c, reg8_b2_0 c with
      | Some d, Some s => I_LD_rr d s | Some d, None => I_LD_rm d
      | None, Some s => I_LD_mr s | None, None => I_HALT end
  | P_OPS_q => match reg8_b2_0 c with Some s => I_ALU_r (ops8_from c) s | None => I_ALU_m (ops8_from c) end
  | P_CB => I_CB
  | P_LD_q_n => match reg8_b5_3 c with Some d => I_LD_rn d | None => I_NOP end
  | P_LD_iid_n => I_LD_mn | P_LD_ii_nn => I_LD_rp_nn HL | P_LD_nn_ii => I_LD_mem_HL
  | P_LD_ii_mem => I_LD_HL_mem | P_LD_SP_ii => I_LD_SP_HL | P_PUSH => I_PUSH SHL | P_POP => I_POP SHL
  | P_EX_SP => I_EX_SP | P_INC8 => I_INC8 (reg8_b5_3 c) | P_DEC8 => I_DEC8 (reg8_b5_3 c)
  | P_ADD_ii => I_ADD16 (reg16_from c) | P_INC16 => I_INC16 HL | P_DEC16 => I_DEC16 HL
  | P_JP_ii => I_JP_HL | P_PFX p => I_PFX p
  end.
Definition link_ed (c : Z) : edinstr :=
  let dn d := match d with Increase => false | Decrease => true end in
  match decode_ed c with
  | E_NOP | E_NONE => D_NOP | E_NEG => D_NEG | E_IM m => D_IM m
  | E_LD_dd_nn => D_LD_rp_mem (reg16_from c) | E_LD_nn_dd => D_LD_mem_rp (reg16_from c)
  | E_LD_A_ir b => if b then D_LD_A_I else D_LD_A_R | E_LD_ir_A b => if b then D_LD_I_A else D_LD_R_A
  | E_ADC => D_ADC16 (reg16_from c) | E_SBC => D_SBC16 (reg16_from c) | E_RLD => D_RLD | E_RRD => D_RRD
  | E_RET => if c =? 0x4D then D_RETI else D_RETN
  | E_LDX d rep => D_LDx (dn d) rep | E_CPX d rep => D_CPx (dn d) rep
  | E_INX d rep => D_INx (dn d) rep | E_OUTX d rep => D_OUTx (dn d) rep
  | E_IN => D_IN (reg8_b5_3 c) | E_OUT => D_OUT (reg8_b5_3 c)
  end.
Definition link_cb (c : Z) : cbop * option Reg8 :=
  match bitops_from c with
  | BRot r g => (C_Rot r, g) | BBit n g => (C_Bit n, g) | BRes n g => (C_Res n, g) | BSet n g => (C_Set n, g)
  end.
Definition reg8_dec (x y : option Reg8) : {x = y} + {x <> y}. Proof. decide equality. decide equality. Defined.
Definition cb_dec (x y : cbop * option Reg8) : {x = y} + {x <> y}.
Proof. decide equality. apply reg8_dec. decide equality; [decide equality|apply Z.eq_dec..]. Defined.
Definition instr_dec (x y : instr) : {x = y} + {x <> y}.
Proof. decide equality; try apply Z.eq_dec; try apply reg8_dec; decide equality. Defined.
Definition ed_dec (x y : edinstr) : {x = y} + {x <> y}.
Proof. decide equality; try apply reg8_dec; decide equality. Defined.
Definition sw {X} (d : forall x y : X, {x = y} + {x <> y}) (f g : Z -> X) (c : Z) : bool :=
  if d (f c) (g c) then true else false.
Lemma sw_spec {X} d (f g : Z -> X) : all1 (sw d f g) = true -> forall c, byte c -> f c = g c.
Proof.
  intros H c Hc. pose proof (all1_spec (sw d f g) H c Hc) as E. unfold sw in E.
  destruct (d (f c) (g c)); [assumption|discriminate].
Qed.
Lemma decode_link c : byte c -> decode c = link_none c.
Proof. revert c. apply (sw_spec instr_dec). vm_compute. reflexivity. Qed.
Lemma decode_link_pfx c : byte c -> decode c = link_pfx c.
Proof. revert c. apply (sw_spec instr_dec). vm_compute. reflexivity. Qed.
Lemma ed_decode_link c : byte c -> ed_decode c = link_ed c.
Proof. revert c. apply (sw_spec ed_dec). vm_compute. reflexivity. Qed.
Lemma cb_decode_link c : byte c -> cb_decode c = link_cb c.
Proof. revert c. apply (sw_spec cb_dec). vm_compute. reflexivity. Qed.
