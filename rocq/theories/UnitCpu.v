(** Generated by tools/gen_unit.py from the unit tests of the crate; do not edit. *)
From Coq Require Import ZArith Bool String List.
From Verif Require Import Base Flags Parse Cpu Flavours Exec Any Format Opconsts UnitTrait.
Import ListNotations.
Open Scope string_scope.
Open Scope list_scope.
Open Scope Z_scope.

(* debug.rs:449-585: texts of arguments *)
Definition debug_args_works : list (string * string) :=
  [(arg_str Dec false (DImm8 255), "255");
   (arg_str LHex false (DImm8 255), "ffh");
   (arg_str UHex false (DImm8 255), "FFh");
   (arg_str LHex true (DImm8 255), "0xff");
   (arg_str UHex true (DImm8 255), "0xFF");
   (arg_str Dec false (DBit 7), "7");
   (arg_str Dec false (DIntMode Mode2), "2");
   (arg_str Dec false (DReg8 None A), "A");
   (arg_str Dec false (DReg8 None B), "B");
   (arg_str Dec false (DReg8 None C), "C");
   (arg_str Dec false (DReg8 None D), "D");
   (arg_str Dec false (DReg8 None E), "E");
   (arg_str Dec false (DReg8 None H), "H");
   (arg_str Dec false (DReg8 None L), "L");
   (arg_str Dec false (DReg8 (Some Xdd) H), "IXH");
   (arg_str Dec false (DReg8 (Some Yfd) L), "IYL");
   (arg_str Dec false (DReg8 None L), "L");
   (arg_str Dec false (DImm16 32767), "32767");
   (arg_str LHex false (DImm16 32767), "7fffh");
   (arg_str UHex false (DImm16 32767), "7FFFh");
   (arg_str LHex true (DImm16 32767), "0x7fff");
   (arg_str UHex true (DImm16 32767), "0x7FFF");
   (arg_str Dec false (DReg16 None BC), "BC");
   (arg_str Dec false (DReg16 None DE), "DE");
   (arg_str Dec false (DReg16 None HL), "HL");
   (arg_str Dec false (DReg16 (Some Xdd) HL), "IX");
   (arg_str Dec false (DReg16 (Some Yfd) HL), "IY");
   (arg_str Dec false (DReg16 None SP), "SP");
   (arg_str Dec false (DStk16 SBC), "BC");
   (arg_str Dec false (DStk16 SDE), "DE");
   (arg_str Dec false (DStk16 SHL), "HL");
   (arg_str Dec false (DStk16 SAF), "AF");
   (arg_str Dec false (DAddr (ImmAddr 32767)), "(32767)");
   (arg_str LHex false (DAddr (ImmAddr 32767)), "(7fffh)");
   (arg_str UHex false (DAddr (ImmAddr 32767)), "(7FFFh)");
   (arg_str LHex true (DAddr (ImmAddr 32767)), "(0x7fff)");
   (arg_str UHex true (DAddr (ImmAddr 32767)), "(0x7FFF)");
   (arg_str Dec false (DAddr (RegAddr HL)), "(HL)");
   (arg_str Dec false (DAddr (IndexAddr Xdd None)), "(IX)");
   (arg_str Dec false (DAddr (IndexAddr Xdd (Some 127))), "(IX+127)");
   (arg_str LHex false (DAddr (IndexAddr Xdd (Some 127))), "(IX+7fh)");
   (arg_str UHex false (DAddr (IndexAddr Xdd (Some 127))), "(IX+7Fh)");
   (arg_str LHex true (DAddr (IndexAddr Xdd (Some 127))), "(IX+0x7f)");
   (arg_str UHex true (DAddr (IndexAddr Xdd (Some 127))), "(IX+0x7F)");
   (arg_str Dec false (DAddr (IndexAddr Yfd None)), "(IY)");
   (arg_str Dec false (DAddr (IndexAddr Yfd (Some (-127)))), "(IY-127)");
   (arg_str LHex false (DAddr (IndexAddr Yfd (Some (-127)))), "(IY-7fh)");
   (arg_str UHex false (DAddr (IndexAddr Yfd (Some (-127)))), "(IY-7Fh)");
   (arg_str LHex true (DAddr (IndexAddr Yfd (Some (-127)))), "(IY-0x7f)");
   (arg_str UHex true (DAddr (IndexAddr Yfd (Some (-127)))), "(IY-0x7F)");
   (arg_str Dec false (DPort (ImmPort 254)), "(254)");
   (arg_str LHex false (DPort (ImmPort 254)), "(feh)");
   (arg_str UHex false (DPort (ImmPort 254)), "(FEh)");
   (arg_str LHex true (DPort (ImmPort 254)), "(0xfe)");
   (arg_str UHex true (DPort (ImmPort 254)), "(0xFE)");
   (arg_str Dec false (DCond NZ), "NZ");
   (arg_str Dec false (DCond CZ), "Z");
   (arg_str Dec false (DCond NC), "NC");
   (arg_str Dec false (DCond CC), "C");
   (arg_str Dec false (DCond PO), "PO");
   (arg_str Dec false (DCond PE), "PE");
   (arg_str Dec false (DCond CP_), "P");
   (arg_str Dec false (DCond CM), "M");
   (args_str Dec false ANone, "");
   (args_str Dec false (ASingle DI), "I");
   (args_str Dec false (ADouble (DReg8 None A) DR), "A, R");
   (args_str Dec false (ADouble (DStk16 SAF) (DStk16 SAF)), "AF, AF'");
   (args_str Dec false (ADouble (DImm16 32767) (DAddr (ImmAddr 65535))), "32767, (65535)");
   (args_str LHex false (ADouble (DImm16 32767) (DAddr (ImmAddr 65535))), "7fffh, (ffffh)");
   (args_str UHex false (ADouble (DImm16 32767) (DAddr (ImmAddr 65535))), "7FFFh, (FFFFh)");
   (args_str LHex true (ADouble (DImm16 32767) (DAddr (ImmAddr 65535))), "0x7fff, (0xffff)");
   (args_str UHex true (ADouble (DImm16 32767) (DAddr (ImmAddr 65535))), "0x7FFF, (0xFFFF)");
   (args_str Dec false (ABitOpExt 4 (DImm8 255) C), "4, 255, C");
   (args_str LHex false (ABitOpExt 4 (DImm8 255) C), "4, ffh, C");
   (args_str UHex false (ABitOpExt 4 (DImm8 255) C), "4, FFh, C");
   (args_str LHex true (ABitOpExt 4 (DImm8 255) C), "4, 0xff, C");
   (args_str UHex true (ABitOpExt 4 (DImm8 255) C), "4, 0xFF, C")].

(* lib.rs:338-358: length, code, text; and the op-code with its mask and base *)
Definition opconst_opcodes : list (nat * list Z * string * option (Z * Z * Z)) :=
  [(1%nat, [NOP_OPCODE], "NOP ", None);
   (1%nat, [HALT_OPCODE], "HALT ", None);
   (1%nat, [DI_OPCODE], "DI ", None);
   (1%nat, [EI_OPCODE], "EI ", None);
   (1%nat, [RET_OPCODE], "RET ", None);
   (2%nat, [fst RETI_OPCODE_T2; snd RETI_OPCODE_T2], "RETI ", None);
   (2%nat, [fst RETN_OPCODE_T2; snd RETN_OPCODE_T2], "RETN ", None);
   (3%nat, [CALL_OPCODE], "CALL 0", None);
   (3%nat, [JP_OPCODE], "JP 0", None);
   (2%nat, [JR_OPCODE], "JR 2", None);
   (1%nat, [(nth 0 RST_OPCODES 0)], "RST 0", None);
   (1%nat, [(nth 1 RST_OPCODES 0)], "RST 8", None);
   (1%nat, [(nth 2 RST_OPCODES 0)], "RST 16", None);
   (1%nat, [(nth 3 RST_OPCODES 0)], "RST 24", None);
   (1%nat, [(nth 4 RST_OPCODES 0)], "RST 32", None);
   (1%nat, [(nth 5 RST_OPCODES 0)], "RST 40", None);
   (1%nat, [(nth 6 RST_OPCODES 0)], "RST 48", None);
   (1%nat, [(nth 7 RST_OPCODES 0)], "RST 56", None);
   (2%nat, [DJNZ_OPCODE], "DJNZ 2", None)].

(* lib.rs:372-421: length, code, text; and the op-code with its mask and base *)
Definition opconst_base : list (nat * list Z * string * option (Z * Z * Z)) :=
  [(3%nat, [(Z.lor JP_CC_OPBASE (cond_to_code NZ))], "JP NZ, 0", Some ((Z.lor JP_CC_OPBASE (cond_to_code NZ)), JP_CC_OPMASK, JP_CC_OPBASE));
   (3%nat, [(Z.lor JP_CC_OPBASE (cond_to_code CZ))], "JP Z, 0", Some ((Z.lor JP_CC_OPBASE (cond_to_code CZ)), JP_CC_OPMASK, JP_CC_OPBASE));
   (3%nat, [(Z.lor JP_CC_OPBASE (cond_to_code NC))], "JP NC, 0", Some ((Z.lor JP_CC_OPBASE (cond_to_code NC)), JP_CC_OPMASK, JP_CC_OPBASE));
   (3%nat, [(Z.lor JP_CC_OPBASE (cond_to_code CC))], "JP C, 0", Some ((Z.lor JP_CC_OPBASE (cond_to_code CC)), JP_CC_OPMASK, JP_CC_OPBASE));
   (3%nat, [(Z.lor JP_CC_OPBASE (cond_to_code PO))], "JP PO, 0", Some ((Z.lor JP_CC_OPBASE (cond_to_code PO)), JP_CC_OPMASK, JP_CC_OPBASE));
   (3%nat, [(Z.lor JP_CC_OPBASE (cond_to_code PE))], "JP PE, 0", Some ((Z.lor JP_CC_OPBASE (cond_to_code PE)), JP_CC_OPMASK, JP_CC_OPBASE));
   (3%nat, [(Z.lor JP_CC_OPBASE (cond_to_code CP_))], "JP P, 0", Some ((Z.lor JP_CC_OPBASE (cond_to_code CP_)), JP_CC_OPMASK, JP_CC_OPBASE));
   (3%nat, [(Z.lor JP_CC_OPBASE (cond_to_code CM))], "JP M, 0", Some ((Z.lor JP_CC_OPBASE (cond_to_code CM)), JP_CC_OPMASK, JP_CC_OPBASE));
   (3%nat, [(Z.lor CALL_CC_OPBASE (cond_to_code NZ))], "CALL NZ, 0", Some ((Z.lor CALL_CC_OPBASE (cond_to_code NZ)), CALL_CC_OPMASK, CALL_CC_OPBASE));
   (3%nat, [(Z.lor CALL_CC_OPBASE (cond_to_code CZ))], "CALL Z, 0", Some ((Z.lor CALL_CC_OPBASE (cond_to_code CZ)), CALL_CC_OPMASK, CALL_CC_OPBASE));
   (3%nat, [(Z.lor CALL_CC_OPBASE (cond_to_code NC))], "CALL NC, 0", Some ((Z.lor CALL_CC_OPBASE (cond_to_code NC)), CALL_CC_OPMASK, CALL_CC_OPBASE));
   (3%nat, [(Z.lor CALL_CC_OPBASE (cond_to_code CC))], "CALL C, 0", Some ((Z.lor CALL_CC_OPBASE (cond_to_code CC)), CALL_CC_OPMASK, CALL_CC_OPBASE));
   (3%nat, [(Z.lor CALL_CC_OPBASE (cond_to_code PO))], "CALL PO, 0", Some ((Z.lor CALL_CC_OPBASE (cond_to_code PO)), CALL_CC_OPMASK, CALL_CC_OPBASE));
   (3%nat, [(Z.lor CALL_CC_OPBASE (cond_to_code PE))], "CALL PE, 0", Some ((Z.lor CALL_CC_OPBASE (cond_to_code PE)), CALL_CC_OPMASK, CALL_CC_OPBASE));
   (3%nat, [(Z.lor CALL_CC_OPBASE (cond_to_code CP_))], "CALL P, 0", Some ((Z.lor CALL_CC_OPBASE (cond_to_code CP_)), CALL_CC_OPMASK, CALL_CC_OPBASE));
   (3%nat, [(Z.lor CALL_CC_OPBASE (cond_to_code CM))], "CALL M, 0", Some ((Z.lor CALL_CC_OPBASE (cond_to_code CM)), CALL_CC_OPMASK, CALL_CC_OPBASE));
   (1%nat, [(Z.lor RET_CC_OPBASE (cond_to_code NZ))], "RET NZ", Some ((Z.lor RET_CC_OPBASE (cond_to_code NZ)), RET_CC_OPMASK, RET_CC_OPBASE));
   (1%nat, [(Z.lor RET_CC_OPBASE (cond_to_code CZ))], "RET Z", Some ((Z.lor RET_CC_OPBASE (cond_to_code CZ)), RET_CC_OPMASK, RET_CC_OPBASE));
   (1%nat, [(Z.lor RET_CC_OPBASE (cond_to_code NC))], "RET NC", Some ((Z.lor RET_CC_OPBASE (cond_to_code NC)), RET_CC_OPMASK, RET_CC_OPBASE));
   (1%nat, [(Z.lor RET_CC_OPBASE (cond_to_code CC))], "RET C", Some ((Z.lor RET_CC_OPBASE (cond_to_code CC)), RET_CC_OPMASK, RET_CC_OPBASE));
   (1%nat, [(Z.lor RET_CC_OPBASE (cond_to_code PO))], "RET PO", Some ((Z.lor RET_CC_OPBASE (cond_to_code PO)), RET_CC_OPMASK, RET_CC_OPBASE));
   (1%nat, [(Z.lor RET_CC_OPBASE (cond_to_code PE))], "RET PE", Some ((Z.lor RET_CC_OPBASE (cond_to_code PE)), RET_CC_OPMASK, RET_CC_OPBASE));
   (1%nat, [(Z.lor RET_CC_OPBASE (cond_to_code CP_))], "RET P", Some ((Z.lor RET_CC_OPBASE (cond_to_code CP_)), RET_CC_OPMASK, RET_CC_OPBASE));
   (1%nat, [(Z.lor RET_CC_OPBASE (cond_to_code CM))], "RET M", Some ((Z.lor RET_CC_OPBASE (cond_to_code CM)), RET_CC_OPMASK, RET_CC_OPBASE));
   (2%nat, [(Z.lor JR_CC_OPBASE (cond_to_code NZ))], "JR NZ, 2", Some ((Z.lor JR_CC_OPBASE (cond_to_code NZ)), JR_CC_OPMASK, JR_CC_OPBASE));
   (2%nat, [(Z.lor JR_CC_OPBASE (cond_to_code CZ))], "JR Z, 2", Some ((Z.lor JR_CC_OPBASE (cond_to_code CZ)), JR_CC_OPMASK, JR_CC_OPBASE));
   (2%nat, [(Z.lor JR_CC_OPBASE (cond_to_code NC))], "JR NC, 2", Some ((Z.lor JR_CC_OPBASE (cond_to_code NC)), JR_CC_OPMASK, JR_CC_OPBASE));
   (2%nat, [(Z.lor JR_CC_OPBASE (cond_to_code CC))], "JR C, 2", Some ((Z.lor JR_CC_OPBASE (cond_to_code CC)), JR_CC_OPMASK, JR_CC_OPBASE));
   (2%nat, [(Z.lor JR_CC_OPBASE (cond_to_code PO))], "JR NZ, 2", Some ((Z.lor JR_CC_OPBASE (cond_to_code PO)), JR_CC_OPMASK, JR_CC_OPBASE));
   (2%nat, [(Z.lor JR_CC_OPBASE (cond_to_code PE))], "JR Z, 2", Some ((Z.lor JR_CC_OPBASE (cond_to_code PE)), JR_CC_OPMASK, JR_CC_OPBASE));
   (2%nat, [(Z.lor JR_CC_OPBASE (cond_to_code CP_))], "JR NC, 2", Some ((Z.lor JR_CC_OPBASE (cond_to_code CP_)), JR_CC_OPMASK, JR_CC_OPBASE));
   (2%nat, [(Z.lor JR_CC_OPBASE (cond_to_code CM))], "JR C, 2", Some ((Z.lor JR_CC_OPBASE (cond_to_code CM)), JR_CC_OPMASK, JR_CC_OPBASE));
   (1%nat, [(Z.lor RST_OPBASE 0)], "RST 0", Some ((Z.lor RST_OPBASE 0), RST_OPMASK, RST_OPBASE));
   (1%nat, [(Z.lor RST_OPBASE 8)], "RST 8", Some ((Z.lor RST_OPBASE 8), RST_OPMASK, RST_OPBASE));
   (1%nat, [(Z.lor RST_OPBASE 16)], "RST 16", Some ((Z.lor RST_OPBASE 16), RST_OPMASK, RST_OPBASE));
   (1%nat, [(Z.lor RST_OPBASE 24)], "RST 24", Some ((Z.lor RST_OPBASE 24), RST_OPMASK, RST_OPBASE));
   (1%nat, [(Z.lor RST_OPBASE 32)], "RST 32", Some ((Z.lor RST_OPBASE 32), RST_OPMASK, RST_OPBASE));
   (1%nat, [(Z.lor RST_OPBASE 40)], "RST 40", Some ((Z.lor RST_OPBASE 40), RST_OPMASK, RST_OPBASE));
   (1%nat, [(Z.lor RST_OPBASE 48)], "RST 48", Some ((Z.lor RST_OPBASE 48), RST_OPMASK, RST_OPBASE));
   (1%nat, [(Z.lor RST_OPBASE 56)], "RST 56", Some ((Z.lor RST_OPBASE 56), RST_OPMASK, RST_OPBASE));
   (2%nat, [ED_PREFIX; (Z.lor RETN_OP2_BASE (cond_to_code NZ))], "RETN ", Some ((Z.lor RETN_OP2_BASE (cond_to_code NZ)), RETN_OP2_MASK, RETN_OP2_BASE));
   (2%nat, [ED_PREFIX; (Z.lor RETN_OP2_BASE (cond_to_code CZ))], "RETI ", Some ((Z.lor RETN_OP2_BASE (cond_to_code CZ)), RETN_OP2_MASK, RETN_OP2_BASE));
   (2%nat, [ED_PREFIX; (Z.lor RETN_OP2_BASE (cond_to_code NC))], "RETN ", Some ((Z.lor RETN_OP2_BASE (cond_to_code NC)), RETN_OP2_MASK, RETN_OP2_BASE));
   (2%nat, [ED_PREFIX; (Z.lor RETN_OP2_BASE (cond_to_code CC))], "RETN ", Some ((Z.lor RETN_OP2_BASE (cond_to_code CC)), RETN_OP2_MASK, RETN_OP2_BASE));
   (2%nat, [ED_PREFIX; (Z.lor RETN_OP2_BASE (cond_to_code PO))], "RETN ", Some ((Z.lor RETN_OP2_BASE (cond_to_code PO)), RETN_OP2_MASK, RETN_OP2_BASE));
   (2%nat, [ED_PREFIX; (Z.lor RETN_OP2_BASE (cond_to_code PE))], "RETN ", Some ((Z.lor RETN_OP2_BASE (cond_to_code PE)), RETN_OP2_MASK, RETN_OP2_BASE));
   (2%nat, [ED_PREFIX; (Z.lor RETN_OP2_BASE (cond_to_code CP_))], "RETN ", Some ((Z.lor RETN_OP2_BASE (cond_to_code CP_)), RETN_OP2_MASK, RETN_OP2_BASE));
   (2%nat, [ED_PREFIX; (Z.lor RETN_OP2_BASE (cond_to_code CM))], "RETN ", Some ((Z.lor RETN_OP2_BASE (cond_to_code CM)), RETN_OP2_MASK, RETN_OP2_BASE))].

(* tests.rs:30-203: the macro [z80_test!] *)
Definition z80_test : list tstep :=
  [Text Dec "Z80 { pc: 0, sp: 0, af: 0, bc: 0, de: 0, hl: 0, af': 0, bc': 0, de': 0, hl': 0, ix: 0, iy: 0, ir: 0, r: 0, im: Mode0, iff1: false, iff2: false, halt: false, ei: false, mp: 0, prefix: None }";
   Want (C_set_pc 4660) AnUnit;
   Want (C_get_pc) (AnInt 4660);
   Want (C_set_sp 65244) AnUnit;
   Want (C_get_sp) (AnInt 65244);
   Want (C_set_acc 66) AnUnit;
   Want (C_get_acc) (AnInt 66);
   Want (C_get_reg A None) (AnInt 66);
   Want (C_get_flags) (AnInt 0);
   Want (C_set_flags (Z.lor FC FX)) AnUnit;
   Want (C_get_flags) (AnInt (Z.lor FC FX));
   Want (C_get_reg2 SAF) (AnPair (66, ((Z.lor FC FX))));
   Want (C_ex_af_af) AnUnit;
   Want (C_get_acc) (AnInt 0);
   Want (C_get_reg A None) (AnInt 0);
   Want (C_get_flags) (AnInt 0);
   Want (C_set_reg2 SAF 175 ((Z.lor FS FZ))) AnUnit;
   Want (C_get_acc) (AnInt 175);
   Want (C_get_reg A None) (AnInt 175);
   Want (C_get_flags) (AnInt (Z.lor FS FZ));
   Want (C_get_reg2 SAF) (AnPair (175, ((Z.lor FS FZ))));
   Want (C_get_alt_reg2 SAF) (AnPair (66, ((Z.lor FC FX))));
   Want (C_set_reg16 SBC 43981) AnUnit;
   Want (C_get_reg16 SBC) (AnInt 43981);
   Want (C_get_reg2 SBC) (AnPair (171, 205));
   Want (C_get_reg B None) (AnInt 171);
   Want (C_get_reg C None) (AnInt 205);
   Want (C_set_reg16 SDE 44527) AnUnit;
   Want (C_get_reg16 SDE) (AnInt 44527);
   Want (C_get_reg2 SDE) (AnPair (173, 239));
   Want (C_get_reg D None) (AnInt 173);
   Want (C_get_reg E None) (AnInt 239);
   Want (C_set_reg16 SHL 61448) AnUnit;
   Want (C_get_reg16 SHL) (AnInt 61448);
   Want (C_get_reg2 SHL) (AnPair (240, 8));
   Want (C_get_reg H None) (AnInt 240);
   Want (C_get_reg L None) (AnInt 8);
   Want (C_get_alt_reg2 SBC) (AnPair (0, 0));
   Want (C_get_alt_reg2 SDE) (AnPair (0, 0));
   Want (C_get_alt_reg2 SHL) (AnPair (0, 0));
   Want (C_get_alt_reg16 SBC) (AnInt 0);
   Want (C_get_alt_reg16 SDE) (AnInt 0);
   Want (C_get_alt_reg16 SHL) (AnInt 0);
   Want (C_exx) AnUnit;
   Want (C_get_alt_reg2 SBC) (AnPair (171, 205));
   Want (C_get_alt_reg2 SDE) (AnPair (173, 239));
   Want (C_get_alt_reg2 SHL) (AnPair (240, 8));
   Want (C_get_alt_reg16 SBC) (AnInt 43981);
   Want (C_get_alt_reg16 SDE) (AnInt 44527);
   Want (C_get_alt_reg16 SHL) (AnInt 61448);
   Want (C_get_reg16 SBC) (AnInt 0);
   Want (C_get_reg16 SDE) (AnInt 0);
   Want (C_get_reg16 SHL) (AnInt 0);
   Want (C_set_reg2 SBC 27 194) AnUnit;
   Want (C_get_reg16 SBC) (AnInt 7106);
   Want (C_set_reg2 SDE 61 228) AnUnit;
   Want (C_get_reg16 SDE) (AnInt 15844);
   Want (C_set_reg2 SHL 80 6) AnUnit;
   Want (C_get_reg16 SHL) (AnInt 20486);
   Want (C_set_index2 Xdd 85 170) AnUnit;
   Want (C_get_index16 Xdd) (AnInt 21930);
   Want (C_get_index2 Xdd) (AnPair (85, 170));
   Want (C_set_index16 Xdd 42330) AnUnit;
   Want (C_get_index16 Xdd) (AnInt 42330);
   Want (C_get_index2 Xdd) (AnPair (165, 90));
   Want (C_set_index2 Yfd 71 56) AnUnit;
   Want (C_get_index16 Yfd) (AnInt 18232);
   Want (C_get_index2 Yfd) (AnPair (71, 56));
   Want (C_set_index16 Yfd 23205) AnUnit;
   Want (C_get_index16 Yfd) (AnInt 23205);
   Want (C_get_index2 Yfd) (AnPair (90, 165));
   Want (C_set_i 127) AnUnit;
   Want (C_get_i) (AnInt 127);
   Want (C_get_ir) (AnInt 32512);
   Want (C_set_r 241) AnUnit;
   Want (C_get_r) (AnInt 241);
   Want (C_get_ir) (AnInt 32753);
   Want (C_add_r 142) AnUnit;
   Want (C_get_i) (AnInt 127);
   Want (C_get_r) (AnInt 255);
   Want (C_get_ir) (AnInt 32767);
   Want (C_get_im) (AnMode Mode0);
   Want (C_set_im Mode2) AnUnit;
   Want (C_get_im) (AnMode Mode2);
   Want (C_get_memptr) (AnInt 0);
   Want (C_set_memptr 47818) AnUnit;
   Want (C_get_memptr) (AnInt 47818);
   Want C_is_after_prefix (AnBool false);
   Want C_is_irq_allowed (AnBool false);
   Want C_is_nmi_allowed (AnBool true);
   Want (C_execute_instruction false 221) (AnResult None);
   Want C_is_after_prefix (AnBool true);
   Want (C_get_iffs) (AnBools (false, false));
   Want C_is_after_ei (AnBool false);
   Want C_is_irq_allowed (AnBool false);
   Want C_is_nmi_allowed (AnBool false);
   Want (C_enable_interrupts) AnUnit;
   Want C_is_after_ei (AnBool true);
   Want C_is_irq_allowed (AnBool false);
   Want C_is_nmi_allowed (AnBool false);
   Want (C_get_iffs) (AnBools (true, true));
   Want C_is_halt (AnBool false);
   Want (C_halt) AnUnit;
   Want C_is_halt (AnBool true);
   Text LHex "Z80 { pc: 1234, sp: fedc, af: afc0, bc: 1bc2, de: 3de4, hl: 5006, af': 4209, bc': abcd, de': adef, hl': f008, ix: a55a, iy: 5aa5, ir: 7ff1, r: 7f, im: Mode2, iff1: true, iff2: true, halt: true, ei: true, mp: baca, prefix: Some(Xdd) }";
   Kind;
   Field (@ir) 32753;
   Field (@r) 127;
   Want (C_normalize_r) AnUnit;
   Field (@ir) 32767;
   Field (@r) 255;
   Want (C_get_i) (AnInt 127);
   Want (C_get_r) (AnInt 255);
   Want (C_get_ir) (AnInt 32767);
   Want (C_get_iffs) (AnBools (true, true));
   Want (C_disable_interrupts) AnUnit;
   Want (C_get_iffs) (AnBools (false, false));
   Want C_is_halt (AnBool true);
   Want C_is_after_prefix (AnBool true);
   Want C_is_after_ei (AnBool true);
   Want C_is_irq_allowed (AnBool false);
   Want C_is_nmi_allowed (AnBool false);
   Want C_nmi (AnBool false);
   Want (C_execute_instruction false 0) (AnResult None);
   Want C_is_halt (AnBool false);
   Want C_is_after_prefix (AnBool false);
   Want C_is_after_ei (AnBool false);
   Want C_is_irq_allowed (AnBool false);
   Want C_is_nmi_allowed (AnBool true);
   Want (C_irq false) (AnIrq None);
   Want (C_set_iffs true true) AnUnit;
   Want (C_get_iffs) (AnBools (true, true));
   Want C_is_irq_allowed (AnBool true);
   Want C_is_nmi_allowed (AnBool true);
   Want C_is_after_ei (AnBool false);
   Want C_nmi (AnBool true);
   Want C_is_irq_allowed (AnBool false);
   Want C_is_nmi_allowed (AnBool true);
   Want (C_get_iffs) (AnBools (false, true));
   Want (C_restore_iff1) AnUnit;
   Want (C_get_iffs) (AnBools (true, true));
   Want C_is_irq_allowed (AnBool true);
   Want C_is_nmi_allowed (AnBool true);
   Want (C_irq false) (AnIrq (Some None))].
