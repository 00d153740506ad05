(** Model of src/z80/instructions.rs (bodies of the mnemonics) and src/z80/opcodes.rs (dispatch). *)
From Coq Require Import ZArith Bool List String.
From Verif Require Import Base Flags Ops Parse Cpu Prog Internal.
Import ListNotations.
Open Scope Z_scope.

(** Arms of [match_instruction!(@none ..)], opcodes.rs:11-80. *)
Inductive mnem :=
| M_LD_r_r | M_OPS_r | M_CB | M_PFX (p : Prefix) | M_ED
| M_NOP | M_DAA | M_CPL | M_CCF | M_SCF | M_DI | M_EI | M_EX_AF | M_EX_DE_HL | M_EXX
| M_LD_r_n | M_LD_A_rp (is_bc : bool) | M_LD_A_nn | M_LD_rp_A (is_bc : bool) | M_LD_nn_A
| M_LD_dd_nn | M_LD_nn_HL | M_LD_HL_nn | M_LD_SP_HL | M_PUSH | M_POP | M_EX_SP_HL | M_OPS_n
| M_INC8 | M_DEC8 | M_ADD_HL | M_INC16 | M_DEC16 | M_RLCA | M_RLA | M_RRCA | M_RRA
| M_JP | M_JP_cc | M_JP_HL | M_JR | M_JR_cc | M_DJNZ | M_CALL | M_CALL_cc | M_RET | M_RET_cc
| M_RST | M_IN_A_n | M_OUT_n_A
| M_NONE.   (** no arm: impossible, Rust's exhaustiveness check; kept to make the function total *)

(** [code] is one of the alternatives of a pattern [a|b|c]. *)
Definition oneof (l : list Z) (c : Z) : bool := existsb (Z.eqb c) l.

Definition decode_none (c : Z) : mnem :=
  if rng 0x40 0x7F c then M_LD_r_r
  else if rng 0x80 0xBF c then M_OPS_r
  else if c =? 0xCB then M_CB
  else if c =? 0xDD then M_PFX Xdd
  else if c =? 0xFD then M_PFX Yfd
  else if c =? 0xED then M_ED
  else if c =? 0x00 then M_NOP
  else if c =? 0x27 then M_DAA
  else if c =? 0x2F then M_CPL
  else if c =? 0x3F then M_CCF
  else if c =? 0x37 then M_SCF
  else if c =? 0xF3 then M_DI
  else if c =? 0xFB then M_EI
  else if c =? 0x08 then M_EX_AF
  else if c =? 0xEB then M_EX_DE_HL
  else if c =? 0xD9 then M_EXX
  else if oneof [0x06;0x0E;0x16;0x1E;0x26;0x2E;0x36;0x3E] c then M_LD_r_n
  else if c =? 0x0A then M_LD_A_rp true
  else if c =? 0x1A then M_LD_A_rp false
  else if c =? 0x3A then M_LD_A_nn
  else if c =? 0x02 then M_LD_rp_A true
  else if c =? 0x12 then M_LD_rp_A false
  else if c =? 0x32 then M_LD_nn_A
  else if oneof [0x01;0x11;0x21;0x31] c then M_LD_dd_nn
  else if c =? 0x22 then M_LD_nn_HL
  else if c =? 0x2A then M_LD_HL_nn
  else if c =? 0xF9 then M_LD_SP_HL
  else if oneof [0xC5;0xD5;0xE5;0xF5] c then M_PUSH
  else if oneof [0xC1;0xD1;0xE1;0xF1] c then M_POP
  else if c =? 0xE3 then M_EX_SP_HL
  else if oneof [0xC6;0xCE;0xD6;0xDE;0xE6;0xEE;0xF6;0xFE] c then M_OPS_n
  else if oneof [0x04;0x0C;0x14;0x1C;0x24;0x2C;0x34;0x3C] c then M_INC8
  else if oneof [0x05;0x0D;0x15;0x1D;0x25;0x2D;0x35;0x3D] c then M_DEC8
  else if oneof [0x09;0x19;0x29;0x39] c then M_ADD_HL
  else if oneof [0x03;0x13;0x23;0x33] c then M_INC16
  else if oneof [0x0B;0x1B;0x2B;0x3B] c then M_DEC16
  else if c =? 0x07 then M_RLCA
  else if c =? 0x17 then M_RLA
  else if c =? 0x0F then M_RRCA
  else if c =? 0x1F then M_RRA
  else if c =? 0xC3 then M_JP
  else if oneof [0xC2;0xCA;0xD2;0xDA;0xE2;0xEA;0xF2;0xFA] c then M_JP_cc
  else if c =? 0xE9 then M_JP_HL
  else if c =? 0x18 then M_JR
  else if oneof [0x38;0x30;0x28;0x20] c then M_JR_cc
  else if c =? 0x10 then M_DJNZ
  else if c =? 0xCD then M_CALL
  else if oneof [0xC4;0xCC;0xD4;0xDC;0xE4;0xEC;0xF4;0xFC] c then M_CALL_cc
  else if c =? 0xC9 then M_RET
  else if oneof [0xC0;0xC8;0xD0;0xD8;0xE0;0xE8;0xF0;0xF8] c then M_RET_cc
  else if oneof [0xC7;0xCF;0xD7;0xDF;0xE7;0xEF;0xF7;0xFF] c then M_RST
  else if c =? 0xDB then M_IN_A_n
  else if c =? 0xD3 then M_OUT_n_A
  else M_NONE.

(** Arms of [match_instruction!(DD|FD ..)], opcodes.rs:82-117. *)
Inductive pmnem :=
| P_IGNORE | P_LD_q_q | P_OPS_q | P_CB | P_LD_q_n | P_LD_iid_n | P_LD_ii_nn | P_LD_nn_ii
| P_LD_ii_mem | P_LD_SP_ii | P_PUSH | P_POP | P_EX_SP | P_INC8 | P_DEC8 | P_ADD_ii
| P_INC16 | P_DEC16 | P_JP_ii | P_PFX (p : Prefix)
| P_NONE.

(** [code] lies in one of the inclusive ranges. *)
Definition inranges (l : list (Z * Z)) (c : Z) : bool := existsb (fun p => rng (fst p) (snd p) c) l.

Definition decode_pfx (c : Z) : pmnem :=
  if inranges [(0x00,0x08);(0x0A,0x18);(0x1A,0x20);(0x27,0x27);(0x28,0x28);(0x2F,0x33);(0x37,0x37);
               (0x38,0x38);(0x3A,0x43);(0x47,0x4B);(0x4F,0x53);(0x57,0x5B);(0x5F,0x5F);(0x76,0x76);
               (0x78,0x7B);(0x7F,0x83);(0x87,0x8B);(0x8F,0x93);(0x97,0x9B);(0x9F,0xA3);(0xA7,0xAB);
               (0xAF,0xB3);(0xB7,0xBB);(0xBF,0xCA);(0xCC,0xDC);(0xDE,0xE0);(0xE2,0xE2);(0xE4,0xE4);
               (0xE6,0xE8);(0xEA,0xF8);(0xFA,0xFC);(0xFE,0xFE);(0xFF,0xFF)] c then P_IGNORE
  else if inranges [(0x44,0x46);(0x4C,0x4E);(0x54,0x56);(0x5C,0x5E);(0x60,0x75);(0x77,0x77);
                    (0x7C,0x7E)] c then P_LD_q_q
  else if inranges [(0x84,0x86);(0x8C,0x8E);(0x94,0x96);(0x9C,0x9E);(0xA4,0xA6);(0xAC,0xAE);
                    (0xB4,0xB6);(0xBC,0xBE)] c then P_OPS_q
  else if c =? 0xCB then P_CB
  else if oneof [0x26;0x2E] c then P_LD_q_n
  else if c =? 0x36 then P_LD_iid_n
  else if c =? 0x21 then P_LD_ii_nn
  else if c =? 0x22 then P_LD_nn_ii
  else if c =? 0x2A then P_LD_ii_mem
  else if c =? 0xF9 then P_LD_SP_ii
  else if c =? 0xE5 then P_PUSH
  else if c =? 0xE1 then P_POP
  else if c =? 0xE3 then P_EX_SP
  else if oneof [0x24;0x2C;0x34] c then P_INC8
  else if oneof [0x25;0x2D;0x35] c then P_DEC8
  else if oneof [0x09;0x19;0x29;0x39] c then P_ADD_ii
  else if c =? 0x23 then P_INC16
  else if c =? 0x2B then P_DEC16
  else if c =? 0xE9 then P_JP_ii
  else if c =? 0xDD then P_PFX Xdd
  else if c =? 0xFD then P_PFX Yfd
  else P_NONE.

(** Arms of [match_instruction!(ED ..)], opcodes.rs:119-161. *)
Inductive emnem :=
| E_NOP | E_NEG | E_IM (m : InterruptMode) | E_LD_dd_nn | E_LD_nn_dd
| E_LD_A_ir (i : bool) | E_LD_ir_A (i : bool) | E_ADC | E_SBC | E_RLD | E_RRD | E_RET
| E_LDX (d : BlockDelta) (rep : bool) | E_CPX (d : BlockDelta) (rep : bool)
| E_INX (d : BlockDelta) (rep : bool) | E_OUTX (d : BlockDelta) (rep : bool)
| E_IN | E_OUT | E_NONE.

Definition decode_ed (c : Z) : emnem :=
  if inranges [(0x00,0x3F);(0x7F,0x9F);(0xA4,0xA7);(0xAC,0xAF);(0xB4,0xB7);(0xBC,0xFF);(0x77,0x77)] c
  then E_NOP
  else if oneof [0x44;0x4C;0x54;0x5C;0x64;0x6C;0x74;0x7C] c then E_NEG
  else if oneof [0x46;0x4E;0x66;0x6E] c then E_IM Mode0
  else if oneof [0x56;0x76] c then E_IM Mode1
  else if oneof [0x5E;0x7E] c then E_IM Mode2
  else if oneof [0x4B;0x5B;0x6B;0x7B] c then E_LD_dd_nn
  else if oneof [0x43;0x53;0x63;0x73] c then E_LD_nn_dd
  else if c =? 0x57 then E_LD_A_ir true
  else if c =? 0x5F then E_LD_A_ir false
  else if c =? 0x47 then E_LD_ir_A true
  else if c =? 0x4F then E_LD_ir_A false
  else if oneof [0x4A;0x5A;0x6A;0x7A] c then E_ADC
  else if oneof [0x42;0x52;0x62;0x72] c then E_SBC
  else if c =? 0x6F then E_RLD
  else if c =? 0x67 then E_RRD
  else if oneof [0x45;0x4D;0x55;0x5D;0x65;0x6D;0x75;0x7D] c then E_RET
  else if c =? 0xA0 then E_LDX Increase false
  else if c =? 0xA8 then E_LDX Decrease false
  else if c =? 0xB0 then E_LDX Increase true
  else if c =? 0xB8 then E_LDX Decrease true
  else if c =? 0xA1 then E_CPX Increase false
  else if c =? 0xA9 then E_CPX Decrease false
  else if c =? 0xB1 then E_CPX Increase true
  else if c =? 0xB9 then E_CPX Decrease true
  else if c =? 0xA2 then E_INX Increase false
  else if c =? 0xAA then E_INX Decrease false
  else if c =? 0xB2 then E_INX Increase true
  else if c =? 0xBA then E_INX Decrease true
  else if c =? 0xA3 then E_OUTX Increase false
  else if c =? 0xAB then E_OUTX Decrease false
  else if c =? 0xB3 then E_OUTX Increase true
  else if c =? 0xBB then E_OUTX Decrease true
  else if oneof [0x40;0x48;0x50;0x58;0x60;0x68;0x70;0x78] c then E_IN
  else if oneof [0x41;0x49;0x51;0x59;0x61;0x69;0x71;0x79] c then E_OUT
  else E_NONE.

Section Instr.
Context {Q TS WB RB : Type}.
Variable FL : Flavour Q.
Variable dbg : bool.

Notation M := (M Q TS WB RB).
Notation reason := (exit_reason WB RB).
Notation "x <- m ;; k" := (mbind m (fun x => k)) (at level 61, m at next level, right associativity).
Notation "m ;;; k" := (mbind m (fun _ => k)) (at level 61, right associativity).
Notation cpu_debug := (cpu_debug dbg).
Notation flags_op := (flags_op FL).

(** A mnemonic either falls through ([None]) or does [break 'main reason]. *)
Definition ok : M (option reason) := mret None.
Definition brk (r : reason) : M (option reason) := mret (Some r).
Definition brk_io (w : option WB) : M (option reason) :=
  match w with Some c => brk (WriteIoR c) | None => ok end.

Definition lsb (nn : Z) : Z := lo8 nn.   (* internal.rs:38-51 WordBytes *)
Definition msb (nn : Z) : Z := hi8 nn.

(* instructions.rs:896-912 [instr_acc_op!] *)
Definition instr_acc_op (bytes : list Z) (name : string) (op : Z -> Z -> Z * Z) : M (option reason) :=
  cpu_debug bytes name a0 ;;; acc_op op ;;; flags_op ;;; ok.

Definition run_ed (c : Z) : M (option reason) :=
  match decode_ed c with
  | E_NOP => cpu_debug [0xED; c] "NOP*" a0 ;;; ok                                 (* 28-30 *)
  | E_NEG => instr_acc_op [0xED; c] "NEG" neg                                     (* 37-39 *)
  | E_IM m => cpu_debug [0xED; c] "IM" (a1 (d_m m)) ;;; upd (set_im m) ;;; ok     (* 72-77 *)
  | E_LD_dd_nn =>                                                                 (* 194-203 *)
      addr <- fetch_next_imm16 0 ;;
      let g := reg16_from c in
      cpu_debug [0xED; c; lsb addr; msb addr] "LD" (a2 (d_rr g) (d_adnn addr)) ;;;
      nn <- read_mem16_addr16 addr ;;
      upd (set_r16 g nn) ;;; ok
  | E_LD_nn_dd =>                                                                 (* 204-212 *)
      addr <- fetch_next_imm16 0 ;;
      let g := reg16_from c in
      cpu_debug [0xED; c; lsb addr; msb addr] "LD" (a2 (d_adnn addr) (d_rr g)) ;;;
      v <- getc (get_r16 g) ;;
      write_mem16_addr16 addr (hi8 v) (lo8 v) ;;; ok
  | E_LD_A_ir i =>                                                                (* 157-159, 163-165, 862-879 *)
      cpu_debug [0xED; c] "LD" (a2 (d_r A) (if i then d_I else d_R)) ;;;
      instr_ld_a_from_ir FL i ;;; ok
  | E_LD_ir_A i =>                                                                (* 160-162, 166-168, 883-891 *)
      cpu_debug [0xED; c] "LD" (a2 (if i then d_I else d_R) (d_r A)) ;;;
      instr_ld_ir_from_a i ;;; ok
  | E_ADC =>                                                                      (* 385-392 *)
      let g := reg16_from c in
      cpu_debug [0xED; c] "ADC" (a2 (d_rr HL) (d_rr g)) ;;;
      v <- getc hl ;; nn <- getc (get_r16 g) ;;
      x <- op16_reg16 FL adc16 v nn ;; upd (set_hl x) ;;; ok
  | E_SBC =>                                                                      (* 393-400 *)
      let g := reg16_from c in
      cpu_debug [0xED; c] "SBC" (a2 (d_rr HL) (d_rr g)) ;;;
      v <- getc hl ;; nn <- getc (get_r16 g) ;;
      x <- op16_reg16 FL sbc16 v nn ;; upd (set_hl x) ;;; ok
  | E_RLD => cpu_debug [0xED; c] "RLD" a0 ;;; instr_rxd FL rld ;;; ok             (* 488-493 *)
  | E_RRD => cpu_debug [0xED; c] "RRD" a0 ;;; instr_rxd FL rrd ;;; ok             (* 494-499 *)
  | E_RET =>                                                                      (* 631-650 *)
      upd restore_iff1 ;;;
      b <- (if c =? 0x4D then
              cpu_debug [0xED; c] "RETI" a0 ;;;
              p <- getpc ;; t <- as_timestamp ;; reti p t
            else cpu_debug [0xED; c] "RETN" a0 ;;; mret None) ;;
      addr <- pop16 ;;
      upd (set_memptr addr) ;;;
      setpc addr ;;;
      match b with Some x => brk (RetiR x) | None => ok end
  | E_LDX d rep =>                                                                (* 279-312 *)
      cpu_debug [0xED; c]
        (match d, rep with Increase, false => "LDI" | Increase, true => "LDIR"
                         | Decrease, false => "LDD" | Decrease, true => "LDDR" end) a0 ;;;
      p <- getpc ;;
      o <- block_transfer FL d (if rep then Some p else None) ;;
      match o with Some p' => setpc p' ;;; ok | None => ok end
  | E_CPX d rep =>                                                                (* 313-346 *)
      cpu_debug [0xED; c]
        (match d, rep with Increase, false => "CPI" | Increase, true => "CPIR"
                         | Decrease, false => "CPD" | Decrease, true => "CPDR" end) a0 ;;;
      p <- getpc ;;
      o <- block_search FL d (if rep then Some p else None) ;;
      match o with Some p' => setpc p' ;;; ok | None => ok end
  | E_INX d rep =>                                                                (* 703-736 *)
      cpu_debug [0xED; c]
        (match d, rep with Increase, false => "INI" | Increase, true => "INIR"
                         | Decrease, false => "IND" | Decrease, true => "INDR" end) a0 ;;;
      p <- getpc ;;
      o <- block_in FL d (if rep then Some p else None) ;;
      match o with Some p' => setpc p' ;;; ok | None => ok end
  | E_OUTX d rep =>                                                               (* 780-823 *)
      cpu_debug [0xED; c]
        (match d, rep with Increase, false => "OUTI" | Increase, true => "OTIR"
                         | Decrease, false => "OUTD" | Decrease, true => "OTDR" end) a0 ;;;
      p <- getpc ;;
      o <- block_out FL d (if rep then Some p else None) ;;
      match snd o with Some p' => setpc p' | None => mret tt end ;;;
      brk_io (fst o)
  | E_IN =>                                                                       (* 678-702 *)
      let arg := reg8_b5_3 c in
      cpu_debug [0xED; c] "IN" (a_maybe_r_x arg d_port_c) ;;;
      io_r_inp_bc FL arg ;;; ok
  | E_OUT =>                                                                      (* 754-779 *)
      let arg := reg8_b5_3 c in
      cpu_debug [0xED; c] "OUT" (a_x_maybe_r d_port_c arg) ;;;
      w <- io_r_out_bc FL arg ;; brk_io w
  | E_NONE => stuck
  end.

Definition run_none (c : Z) : M (option reason) :=
  match decode_none c with
  | M_LD_r_r =>                                                                   (* 78-104 *)
      match reg8_b5_3 c, reg8_b2_0 c with
      | Some dst, Some src =>
          cpu_debug [c] "LD" (a2 (d_r dst) (d_r src)) ;;; upd (load_reg dst src None) ;;; ok
      | Some dst, None =>
          cpu_debug [c] "LD" (a2 (d_r dst) (d_addr HL)) ;;;
          n <- read_mem8_hl 0 ;; upd (set_reg dst None n) ;;; ok
      | None, Some src =>
          cpu_debug [c] "LD" (a2 (d_addr HL) (d_r src)) ;;;
          v <- getc (get_reg src None) ;; write_mem8_hl v ;;; ok
      | None, None =>
          cpu_debug [c] "HALT" a0 ;;;
          p <- getpc ;; setpc (u16 (p - 1)) ;;; upd do_halt ;;; brk Halt
      end
  | M_OPS_r =>                                                                    (* 347-361 *)
      let arg := reg8_b2_0 c in
      let op := ops8_from c in
      cpu_debug_op8 dbg [c] op (d_r_addr arg) ;;; op8_with_arg FL op arg ;;; ok
  | M_CB =>                                                                       (* 431-487 *)
      p <- getpc ;;
      x <- fetch_next_opcode p ;;
      setpc (fst x) ;;;
      let code1 := snd x in
      let o := bitops_from code1 in
      cpu_debug_bitops dbg [c; code1] o ;;; bitops FL o ;;; ok
  | M_PFX p => setpx (Some p) ;;; ok                                (* opcodes.rs:16-17 *)
  | M_ED =>                                                         (* opcodes.rs:18-23 *)
      p <- getpc ;;
      x <- fetch_next_opcode p ;;
      setpc (fst x) ;;;
      run_ed (snd x)
  | M_NOP => cpu_debug [c] "NOP" a0 ;;; ok                                        (* 56-58 *)
  | M_DAA =>                                                                      (* 31-33 *)
      cpu_debug [c] "DAA" a0 ;;;
      a <- getc get_acc ;; f <- getf ;;
      match daa a f with
      | Some x => setf (snd x) ;;; upd (set_acc (fst x)) ;;; flags_op ;;; ok
      | None => stuck
      end
  | M_CPL => instr_acc_op [c] "CPL" cpl                                           (* 34-36 *)
  | M_CCF =>                                                                      (* 40-47 *)
      cpu_debug [c] "CCF" a0 ;;;
      a <- getc get_acc ;; f <- getf ;; v <- getc flavour ;;
      setf (ccf (get_q FL v a f) f) ;;; flags_op ;;; ok
  | M_SCF =>                                                                      (* 48-55 *)
      cpu_debug [c] "SCF" a0 ;;;
      a <- getc get_acc ;; f <- getf ;; v <- getc flavour ;;
      setf (scf (get_q FL v a f) f) ;;; flags_op ;;; ok
  | M_DI => cpu_debug [c] "DI" a0 ;;; upd disable_interrupts ;;; ok               (* 59-64 *)
  | M_EI => cpu_debug [c] "EI" a0 ;;; upd enable_interrupts ;;; brk EnableInt     (* 65-71 *)
  | M_EX_AF => cpu_debug [c] "EX" (a2 (d_ss SAF) (d_ss SAF)) ;;; ex_af_af_with_flags ;;; ok (* 259-264 *)
  | M_EX_DE_HL => cpu_debug [c] "EX" (a2 (d_rr DE) (d_rr HL)) ;;; upd ex_de_hl ;;; ok       (* 253-258 *)
  | M_EXX => cpu_debug [c] "EXX" a0 ;;; upd exx ;;; ok                            (* 265-270 *)
  | M_LD_r_n =>                                                                   (* 105-119 *)
      n <- fetch_next_imm8 0 ;;
      match reg8_b5_3 c with
      | Some dst => cpu_debug [c; n] "LD" (a2 (d_r dst) (d_n n)) ;;; upd (set_reg dst None n) ;;; ok
      | None => cpu_debug [c; n] "LD" (a2 (d_addr HL) (d_n n)) ;;; write_mem8_hl n ;;; ok
      end
  | M_LD_A_rp i =>                                                                (* 120-122, 126-128, 837-845 *)
      cpu_debug [c] "LD" (a2 (d_r A) (d_addr (if i then BC else DE))) ;;; instr_ld_a_from_rp i ;;; ok
  | M_LD_rp_A i =>                                                                (* 123-125, 129-131, 847-855 *)
      cpu_debug [c] "LD" (a2 (d_addr (if i then BC else DE)) (d_r A)) ;;; instr_ld_rp_from_a FL i ;;; ok
  | M_LD_A_nn =>                                                                  (* 132-143 *)
      nn <- fetch_next_imm16 0 ;;
      cpu_debug [c; lsb nn; msb nn] "LD" (a2 (d_r A) (d_adnn nn)) ;;; ld_a_from_mem8 nn ;;; ok
  | M_LD_nn_A =>                                                                  (* 144-156 *)
      nn <- fetch_next_imm16 0 ;;
      cpu_debug [c; lsb nn; msb nn] "LD" (a2 (d_adnn nn) (d_r A)) ;;; ld_mem8_from_a FL nn ;;; ok
  | M_LD_dd_nn =>                                                                 (* 169-176 *)
      nn <- fetch_next_imm16 0 ;;
      let g := reg16_from c in
      cpu_debug [c; lsb nn; msb nn] "LD" (a2 (d_rr g) (d_nn nn)) ;;; upd (set_r16 g nn) ;;; ok
  | M_LD_HL_nn =>                                                                 (* 177-185 *)
      addr <- fetch_next_imm16 0 ;;
      cpu_debug [c; lsb addr; msb addr] "LD" (a2 (d_rr HL) (d_adnn addr)) ;;;
      nn <- read_mem16_addr16 addr ;; upd (set_hl nn) ;;; ok
  | M_LD_nn_HL =>                                                                 (* 186-193 *)
      addr <- fetch_next_imm16 0 ;;
      cpu_debug [c; lsb addr; msb addr] "LD" (a2 (d_adnn addr) (d_rr HL)) ;;;
      v <- getc hl ;; write_mem16_addr16 addr (hi8 v) (lo8 v) ;;; ok
  | M_LD_SP_HL =>                                                                 (* 213-220 *)
      cpu_debug [c] "LD" (a2 (d_rr SP) (d_rr HL)) ;;;
      i <- getc get_ir ;; add_no_mreq i 2 ;;;
      v <- getc hl ;; upd (set_sp v) ;;; ok
  | M_PUSH =>                                                                     (* 221-235 *)
      let ss := stkreg16_from c in
      cpu_debug [c] "PUSH" (a1 (d_ss ss)) ;;; push_ss ss ;;; ok
  | M_POP =>                                                                      (* 236-252 *)
      let ss := stkreg16_from c in
      cpu_debug [c] "POP" (a1 (d_ss ss)) ;;; pop_ss ss ;;; ok
  | M_EX_SP_HL =>                                                                 (* 271-278 *)
      cpu_debug [c] "EX" (a2 (d_addr SP) (d_rr HL)) ;;;
      v <- getc hl ;;
      x <- ex_sp_nn (hi8 v) (lo8 v) ;; upd (set_hl x) ;;; ok
  | M_OPS_n =>                                                                    (* 362-370 *)
      n <- fetch_next_imm8 0 ;;
      let op := ops8_from c in
      cpu_debug_op8 dbg [c; n] op (d_n n) ;;; op8 FL op n ;;; ok
  | M_INC8 =>                                                                     (* 371-373, 915-930 *)
      let arg := reg8_b5_3 c in
      cpu_debug [c] "INC" (a1 (d_r_addr arg)) ;;; instr_inc_dec8 FL arg inc ;;; ok
  | M_DEC8 =>                                                                     (* 374-376 *)
      let arg := reg8_b5_3 c in
      cpu_debug [c] "DEC" (a1 (d_r_addr arg)) ;;; instr_inc_dec8 FL arg dec ;;; ok
  | M_ADD_HL =>                                                                   (* 377-384 *)
      let g := reg16_from c in
      cpu_debug [c] "ADD" (a2 (d_rr HL) (d_rr g)) ;;;
      v <- getc hl ;; nn <- getc (get_r16 g) ;;
      x <- op16_reg16 FL add16 v nn ;; upd (set_hl x) ;;; ok
  | M_INC16 =>                                                                    (* 401-409 *)
      i <- getc get_ir ;; add_no_mreq i 2 ;;;
      let g := reg16_from c in
      cpu_debug [c] "INC" (a1 (d_rr g)) ;;;
      upd (fun x => set_r16 g (u16 (get_r16 g x + 1)) x) ;;; ok
  | M_DEC16 =>                                                                    (* 410-418 *)
      i <- getc get_ir ;; add_no_mreq i 2 ;;;
      let g := reg16_from c in
      cpu_debug [c] "DEC" (a1 (d_rr g)) ;;;
      upd (fun x => set_r16 g (u16 (get_r16 g x - 1)) x) ;;; ok
  | M_RLCA => instr_acc_op [c] "RLCA" rlca                                        (* 419-430 *)
  | M_RRCA => instr_acc_op [c] "RRCA" rrca
  | M_RLA => instr_acc_op [c] "RLA" rla
  | M_RRA => instr_acc_op [c] "RRA" rra
  | M_JP =>                                                                       (* 500-508 *)
      addr <- fetch_next_imm16 0 ;;
      cpu_debug [c; lsb addr; msb addr] "JP" (a1 (d_nn addr)) ;;;
      upd (set_memptr addr) ;;; setpc addr ;;; ok
  | M_JP_cc =>                                                                    (* 509-521 *)
      addr <- fetch_next_imm16 0 ;;
      let cc := cond_from c in
      cpu_debug [c; lsb addr; msb addr] "JP" (a2 (d_cc cc) (d_nn addr)) ;;;
      upd (set_memptr addr) ;;;
      f <- getf ;;
      if is_satisfied cc f then setpc addr ;;; ok else ok
  | M_JR =>                                                                       (* 522-531 *)
      e <- fetch_next_imm8 5 ;;
      p <- getpc ;;
      let addr := relative_jump_address p e in
      cpu_debug [c; e] "JR" (a1 (d_nn addr)) ;;;
      upd (set_memptr addr) ;;; setpc addr ;;; ok
  | M_JR_cc =>                                                                    (* 532-550 *)
      let cc := cond_from_jr_subset c in
      f <- getf ;;
      if is_satisfied cc f then
        e <- fetch_next_imm8 5 ;;
        p <- getpc ;;
        let addr := relative_jump_address p e in
        cpu_debug [c; e] "JR" (a2 (d_cc cc) (d_nn addr)) ;;;
        upd (set_memptr addr) ;;; setpc addr ;;; ok
      else
        p <- getpc ;;
        _ <- add_mreq p ;;
        e <- read_debug p ;;
        let p := u16 (p + 1) in
        setpc p ;;;
        cpu_debug [c; e] "JR" (a2 (d_cc cc) (d_nn (relative_jump_address p e))) ;;; ok
  | M_JP_HL =>                                                                    (* 551-556 *)
      cpu_debug [c] "JP" (a1 (d_addr HL)) ;;; v <- getc hl ;; setpc v ;;; ok
  | M_DJNZ =>                                                                     (* 557-581 *)
      i <- getc get_ir ;; add_no_mreq i 1 ;;;
      v <- getc bc ;;
      let b := u8 (hi8 v - 1) in
      (if negb (b =? 0) then
         e <- fetch_next_imm8 5 ;;
         p <- getpc ;;
         let addr := relative_jump_address p e in
         cpu_debug [c; e] "DJNZ" (a1 (d_nn addr)) ;;;
         upd (set_memptr addr) ;;; setpc addr
       else
         p <- getpc ;;
         _ <- add_mreq p ;;
         e <- read_debug p ;;
         let p := u16 (p + 1) in
         setpc p ;;;
         cpu_debug [c; e] "DJNZ" (a1 (d_nn (relative_jump_address p e)))) ;;;
      upd (fun x => set_bc (set8hi (bc x) b) x) ;;; ok
  | M_CALL =>                                                                     (* 582-591 *)
      addr <- fetch_next_imm16 1 ;;
      cpu_debug [c; lsb addr; msb addr] "CALL" (a1 (d_nn addr)) ;;;
      p <- getpc ;; push16 p ;;;
      upd (set_memptr addr) ;;; setpc addr ;;; ok
  | M_CALL_cc =>                                                                  (* 592-607 *)
      addr <- fetch_next_imm16 0 ;;
      let cc := cond_from c in
      cpu_debug [c; lsb addr; msb addr] "CALL" (a2 (d_cc cc) (d_nn addr)) ;;;
      upd (set_memptr addr) ;;;
      f <- getf ;;
      if is_satisfied cc f then
        p <- getpc ;;
        add_no_mreq (u16 (p - 1)) 1 ;;;
        push16 p ;;; setpc addr ;;; ok
      else ok
  | M_RET =>                                                                      (* 608-616 *)
      cpu_debug [c] "RET" a0 ;;;
      addr <- pop16 ;; upd (set_memptr addr) ;;; setpc addr ;;; ok
  | M_RET_cc =>                                                                   (* 617-630 *)
      i <- getc get_ir ;; add_no_mreq i 1 ;;;
      let cc := cond_from c in
      cpu_debug [c] "RET" (a1 (d_cc cc)) ;;;
      f <- getf ;;
      if is_satisfied cc f then
        addr <- pop16 ;; upd (set_memptr addr) ;;; setpc addr ;;; ok
      else ok
  | M_RST =>                                                                      (* 651-662 *)
      i <- getc get_ir ;; add_no_mreq i 1 ;;;
      let addr := parse_restart_address c in
      cpu_debug [c] "RST" (a1 (d_p addr)) ;;;
      p <- getpc ;; push16 p ;;;
      upd (set_memptr addr) ;;; setpc addr ;;; ok
  | M_IN_A_n =>                                                                   (* 663-677 *)
      n <- fetch_next_imm8 0 ;;
      cpu_debug [c; n] "IN" (a2 (d_r A) (d_port n)) ;;; io_a_inp_an n ;;; ok
  | M_OUT_n_A =>                                                                  (* 737-753 *)
      n <- fetch_next_imm8 0 ;;
      cpu_debug [c; n] "OUT" (a2 (d_port n) (d_r A)) ;;;
      w <- io_a_out_an FL n ;; brk_io w
  | M_NONE => stuck
  end.

(** What the prefixed table does next. *)
Inductive pnext := PRepeat | PDone | PKeep.

(* instructions.rs:942-1207, under prefix [px] *)
Definition run_pfx (px : Prefix) (c : Z) : M pnext :=
  match decode_pfx c with
  | P_IGNORE => setpx None ;;; mret PRepeat                                       (* opcodes.rs:84-89 *)
  | P_PFX p => setpx (Some p) ;;; mret PKeep                                      (* opcodes.rs:114-115 *)
  | P_LD_q_q =>                                                                   (* 943-973 *)
      match reg8_b5_3 c, reg8_b2_0 c with
      | Some dst, Some src =>
          match dst, src with
          | H, _ | L, _ | _, H | _, L =>
              cpu_debug [c] "LD" (a2 (d_q dst) (d_q src)) ;;; upd (load_reg dst src (Some px)) ;;; mret PDone
          | _, _ => stuck
          end
      | Some dst, None =>
          d <- fetch_next_imm8 5 ;;
          cpu_debug [c; d] "LD" (a2 (d_r dst) (d_ii d)) ;;;
          v <- read_mem8_ii_d px d ;; upd (set_reg dst None v) ;;; mret PDone
      | None, Some src =>
          d <- fetch_next_imm8 5 ;;
          cpu_debug [c; d] "LD" (a2 (d_ii d) (d_r src)) ;;;
          v <- getc (get_reg src None) ;; write_mem8_ii_d px d v ;;; mret PDone
      | None, None => stuck
      end
  | P_LD_q_n =>                                                                   (* 974-985 *)
      match reg8_b5_3 c with
      | Some H => n <- fetch_next_imm8 0 ;;
          cpu_debug [c; n] "LD" (a2 (d_q H) (d_n n)) ;;; upd (set_reg H (Some px) n) ;;; mret PDone
      | Some L => n <- fetch_next_imm8 0 ;;
          cpu_debug [c; n] "LD" (a2 (d_q L) (d_n n)) ;;; upd (set_reg L (Some px) n) ;;; mret PDone
      | _ => stuck
      end
  | P_LD_iid_n =>                                                                 (* 986-996 *)
      d <- fetch_next_imm8 0 ;;
      n <- fetch_next_imm8 2 ;;
      cpu_debug [c; d; n] "LD" (a2 (d_ii d) (d_n n)) ;;; write_mem8_ii_d px d n ;;; mret PDone
  | P_LD_ii_nn =>                                                                 (* 997-1003 *)
      nn <- fetch_next_imm16 0 ;;
      cpu_debug [c; lsb nn; msb nn] "LD" (a2 (d_qq HL) (d_nn nn)) ;;; upd (set_index16 px nn) ;;; mret PDone
  | P_LD_ii_mem =>                                                                (* 1004-1012 *)
      addr <- fetch_next_imm16 0 ;;
      cpu_debug [c; lsb addr; msb addr] "LD" (a2 (d_qq HL) (d_adnn addr)) ;;;
      nn <- read_mem16_addr16 addr ;; upd (set_index16 px nn) ;;; mret PDone
  | P_LD_nn_ii =>                                                                 (* 1013-1020 *)
      addr <- fetch_next_imm16 0 ;;
      cpu_debug [c; lsb addr; msb addr] "LD" (a2 (d_adnn addr) (d_qq HL)) ;;;
      v <- getc (get_index16 px) ;; write_mem16_addr16 addr (hi8 v) (lo8 v) ;;; mret PDone
  | P_LD_SP_ii =>                                                                 (* 1021-1028 *)
      i <- getc get_ir ;; add_no_mreq i 2 ;;;
      cpu_debug [c] "LD" (a2 (d_rr SP) (d_qq HL)) ;;;
      v <- getc (get_index16 px) ;; upd (set_sp v) ;;; mret PDone
  | P_EX_SP =>                                                                    (* 1029-1036 *)
      cpu_debug [c] "EX" (a2 (d_addr SP) (d_qq HL)) ;;;
      v <- getc (get_index16 px) ;;
      x <- ex_sp_nn (hi8 v) (lo8 v) ;; upd (set_index16 px x) ;;; mret PDone
  | P_PUSH =>                                                                     (* 1037-1045 *)
      i <- getc get_ir ;; add_no_mreq i 1 ;;;
      cpu_debug [c] "PUSH" (a1 (d_qq HL)) ;;;
      v <- getc (get_index16 px) ;; push2 (hi8 v) (lo8 v) ;;; mret PDone
  | P_POP =>                                                                      (* 1046-1052 *)
      cpu_debug [c] "POP" (a1 (d_qq HL)) ;;;
      v <- pop16 ;; upd (set_index16 px v) ;;; mret PDone
  | P_INC16 =>                                                                    (* 1053-1060 *)
      cpu_debug [c] "INC" (a1 (d_qq HL)) ;;;
      i <- getc get_ir ;; add_no_mreq i 2 ;;;
      upd (fun x => set_index16 px (u16 (get_index16 px x + 1)) x) ;;; mret PDone
  | P_DEC16 =>                                                                    (* 1061-1068 *)
      cpu_debug [c] "DEC" (a1 (d_qq HL)) ;;;
      i <- getc get_ir ;; add_no_mreq i 2 ;;;
      upd (fun x => set_index16 px (u16 (get_index16 px x - 1)) x) ;;; mret PDone
  | P_OPS_q =>                                                                    (* 1069-1090 *)
      let op := ops8_from c in
      v <- match reg8_b2_0 c with
           | Some H => cpu_debug_op8 dbg [c] op (d_q H) ;;; getc (get_reg H (Some px))
           | Some L => cpu_debug_op8 dbg [c] op (d_q L) ;;; getc (get_reg L (Some px))
           | None => d <- fetch_next_imm8 5 ;;
                     cpu_debug_op8 dbg [c; d] op (d_ii d) ;;; read_mem8_ii_d px d
           | _ => stuck
           end ;;
      op8 FL op v ;;; mret PDone
  | P_INC8 | P_DEC8 =>                                                            (* 1091-1100, 1179-1207 *)
      let name := match decode_pfx c with P_INC8 => "INC"%string | _ => "DEC"%string end in
      let op := match decode_pfx c with P_INC8 => inc | _ => dec end in
      match reg8_b5_3 c with
      | Some H => cpu_debug [c] name (a1 (d_q H)) ;;;
                  apply_reg8 H (Some px) (flag_fn op) ;;; flags_op ;;; mret PDone
      | Some L => cpu_debug [c] name (a1 (d_q L)) ;;;
                  apply_reg8 L (Some px) (flag_fn op) ;;; flags_op ;;; mret PDone
      | None => d <- fetch_next_imm8 5 ;;
                cpu_debug [c; d] name (a1 (d_ii d)) ;;;
                instr_inc_dec_x_mem8 FL px d op ;;; mret PDone
      | _ => stuck
      end
  | P_ADD_ii =>                                                                   (* 1101-1112 *)
      let g := reg16_from c in
      cpu_debug [c] "ADD" (a2 (d_qq HL) (d_qq g)) ;;;
      nn <- getc (get_prefix_reg16 g px) ;;
      v <- getc (get_index16 px) ;;
      x <- op16_reg16 FL add16 v nn ;; upd (set_index16 px x) ;;; mret PDone
  | P_CB =>                                                                       (* 1113-1162 *)
      d <- fetch_next_imm8 0 ;;
      code1 <- fetch_next_imm8 2 ;;
      let o := bitops_from code1 in
      cpu_debug_bitops_ii dbg [c; d; code1] o d ;;; bitops_qq FL o px d ;;; mret PDone
  | P_JP_ii =>                                                                    (* 1163-1168 *)
      cpu_debug [c] "JP" (a1 d_addr_ii) ;;; v <- getc (get_index16 px) ;; setpc v ;;; mret PDone
  | P_NONE => stuck
  end.

(** The [execute_instruction!] macro, opcodes.rs:165-189.  The ['repeat] loop runs at most twice:
    [continue 'repeat] happens only after [prefix] has been set to [None]. *)
Definition exec_code (c : Z) : M (option reason) :=
  upd (fun x => set_flavour (begin_instruction FL (flavour x)) x) ;;;
  px <- (fun s => Ret (s, spx s)) ;;
  match px with
  | None => run_none c
  | Some p =>
      n <- run_pfx p c ;;
      match n with
      | PRepeat => run_none c
      | PDone => setpx None ;;; ok
      | PKeep => ok
      end
  end.
End Instr.
