(** C35: the op-code constants, fields and conditions agree with the instruction tables ([SpecIsa.decode], [ed_decode]). *)
From Coq Require Import ZArith Bool String List.
From Verif Require Import Base Flags Parse Cpu SpecAlu SpecState SpecIsa Format Opconsts OpconstsProofs.
Import ListNotations.
Open Scope Z_scope.

(** The documented matching rule selects exactly the op-codes of the class, and the operand read from them is right. *)
Theorem C35_match : forall c, byte c ->
  (forall cc, decode c = I_RETcc cc <-> Z.land c RET_CC_OPMASK = RET_CC_OPBASE /\ cond_from c = cc) /\
  (forall cc, decode c = I_CALLcc cc <-> Z.land c CALL_CC_OPMASK = CALL_CC_OPBASE /\ cond_from c = cc) /\
  (forall cc, decode c = I_JPcc cc <-> Z.land c JP_CC_OPMASK = JP_CC_OPBASE /\ cond_from c = cc) /\
  (forall cc, decode c = I_JRcc cc <-> Z.land c JR_CC_OPMASK = JR_CC_OPBASE /\ cond_from_jr_subset c = cc) /\
  (forall a, decode c = I_RST a <-> Z.land c RST_OPMASK = RST_OPBASE /\ parse_restart_address c = a) /\
  ((ed_decode c = D_RETN \/ ed_decode c = D_RETI) <-> Z.land c RETN_OP2_MASK = RETN_OP2_BASE).
Proof. exact match_all. Qed.
Example C35_match_ex : decode 0xDC = I_CALLcc CC /\ Z.land 0xDC CALL_CC_OPMASK = CALL_CC_OPBASE /\ Z.land 0xDC RET_CC_OPMASK <> RET_CC_OPBASE.
Proof. repeat split; discriminate. Qed.

(** The documented building rule; JR takes only four of the conditions. *)
Theorem C35_build :
  (forall cc, decode (Z.lor RET_CC_OPBASE (cond_to_code cc)) = I_RETcc cc /\
              decode (Z.lor CALL_CC_OPBASE (cond_to_code cc)) = I_CALLcc cc /\
              decode (Z.lor JP_CC_OPBASE (cond_to_code cc)) = I_JPcc cc) /\
  (forall cc, decode (Z.lor JR_CC_OPBASE (cond_to_code cc)) = I_JRcc cc <-> In cc [NZ; CZ; NC; CC]) /\
  (forall k, (k < 8)%nat -> decode (Z.lor RST_OPBASE (8 * Z.of_nat k)) = I_RST (8 * Z.of_nat k) /\
             nth_error RST_OPCODES k = Some (Z.lor RST_OPBASE (8 * Z.of_nat k))).
Proof. exact (conj build_cc (conj build_jr_list build_rst)). Qed.
Example C35_build_ex : Z.lor JP_CC_OPBASE (cond_to_code PE) = 0xEA /\ decode (Z.lor JR_CC_OPBASE (cond_to_code PE)) = I_JRcc CZ.
Proof. split; reflexivity. Qed.

(** The constants for single instructions. *)
Theorem C35_single : forall c, byte c ->
  (c = NOP_OPCODE <-> decode c = I_NOP) /\ (c = HALT_OPCODE <-> decode c = I_HALT) /\ (c = DI_OPCODE <-> decode c = I_DI) /\
  (c = EI_OPCODE <-> decode c = I_EI) /\ (c = RET_OPCODE <-> decode c = I_RET) /\ (c = CALL_OPCODE <-> decode c = I_CALL) /\
  (c = JP_OPCODE <-> decode c = I_JP) /\ (c = JR_OPCODE <-> decode c = I_JR) /\ (c = DJNZ_OPCODE <-> decode c = I_DJNZ) /\
  (c = ED_PREFIX <-> decode c = I_ED) /\ (c = DD_PREFIX <-> decode c = I_PFX Xdd) /\ (c = FD_PREFIX <-> decode c = I_PFX Yfd) /\
  (c = snd RETI_OPCODE_T2 <-> ed_decode c = D_RETI) /\
  fst RETI_OPCODE_T2 = ED_PREFIX /\ fst RETN_OPCODE_T2 = ED_PREFIX /\ ed_decode (snd RETN_OPCODE_T2) = D_RETN.
Proof. exact single_all. Qed.
Example C35_single_ex : decode 0x76 = I_HALT /\ 0x76 = HALT_OPCODE.
Proof. split; reflexivity. Qed.

(** Codes and texts give back what they were made from. *)
Theorem C35_roundtrip :
  (forall x, cond_from (cond_to_code x) = x) /\ (forall x, stkreg16_from (stkreg16_to_code x) = x) /\
  (forall x, reg16_from (reg16_to_code x) = x) /\ (forall x, ops8_from (ops8_to_code x) = x) /\
  (forall x, rot_from (rot_to_code x) = x) /\ (forall x, reg8_try_from (reg8_to_code x) = Some x) /\
  (forall x, prefix_try_from (prefix_to_code x) = Some x) /\ (forall x, im_try_from (im_to_mode_number x) = Some x) /\
  (forall x, cond_from_str (cond_str x) = Some x).
Proof. exact fields_back. Qed.
Example C35_roundtrip_ex : cond_from 0xF7 = CP_ /\ cond_from_str "PO" = Some PO /\ cond_to_code PO = 0x20.
Proof. repeat split. Qed.

(** Every byte has a meaning: the masked byte is the discriminant of the result (so the unchecked arm of the
    matches is never taken), and conversions that can fail do so exactly where there is nothing to convert to. *)
Theorem C35_total : forall c, byte c ->
  (cond_to_code (cond_from c) = Z.land c 0x38 /\ ops8_to_code (ops8_from c) = Z.land c 0x38 /\ rot_to_code (rot_from c) = Z.land c 0x38 /\
   stkreg16_to_code (stkreg16_from c) = Z.land c 0x30 /\ reg16_to_code (reg16_from c) = Z.land c 0x30) /\
  match reg8_try_from c with Some r => reg8_to_code r = Z.land c 7 | None => Z.land c 7 = 6 end /\
  match prefix_try_from c with Some p => prefix_to_code p = c | None => c <> 0xDD /\ c <> 0xFD end /\
  match im_try_from c with Some m => im_to_mode_number m = c | None => ~ 0 <= c <= 2 end.
Proof. exact total_all. Qed.
Theorem C35_cond_text : forall s, match cond_from_str s with Some c => cond_str c = s | None => forall c, cond_str c <> s end.
Proof. exact cond_str_total. Qed.
Example C35_total_ex : reg8_try_from 0x7E = None /\ reg8_try_from 0x7D = Some L /\ im_try_from 3 = None /\ cond_from_str "nz" = None.
Proof. repeat split. Qed.

(** A condition tests flag Z, C, P/V or S (bits 6, 0, 2, 7), chosen by bits 5-4 of its code, for being equal to bit 3. *)
Theorem C35_satisfied : forall f c, byte c ->
  is_satisfied (cond_from c) f = Bool.eqb (Z.testbit f (nth (Z.to_nat (c / 16 mod 4)) [6; 0; 2; 7] 0)) (Z.testbit c 3).
Proof. exact satisfied. Qed.
(** Of two conditions exactly one holds, whatever the flags, if and only if their codes differ in bit 3 alone. *)
Theorem C35_opposite : forall x y,
  (forall f, byte f -> is_satisfied y f = negb (is_satisfied x f)) <-> cond_to_code y = Z.lxor (cond_to_code x) 8.
Proof. exact opposite_iff. Qed.
Example C35_opposite_ex : is_satisfied PE 0x04 = true /\ is_satisfied PO 0x04 = false /\ is_satisfied CM 0x84 = true /\ is_satisfied NC 0x84 = true.
Proof. repeat split. Qed.

Definition C35_everything := (@C35_match, @C35_build, @C35_single, @C35_roundtrip, @C35_total, @C35_cond_text, @C35_satisfied, @C35_opposite).
Print Assumptions C35_everything.
