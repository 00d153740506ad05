(** Model of the encodings: lib.rs:189-294 (module [opconsts]), the [to_code]s and text conversions of parse.rs and
    the interrupt mode numbers of registers.rs. *)
From Coq Require Import ZArith Bool String List.
From Verif Require Import Base Flags Parse.
Import ListNotations.
Open Scope Z_scope.

Definition ED_PREFIX : Z := 0xED.        (* lib.rs:202 *)
Definition DD_PREFIX : Z := 0xDD.        (* lib.rs:204 *)
Definition FD_PREFIX : Z := 0xFD.        (* lib.rs:206 *)
Definition NOP_OPCODE : Z := 0x00.       (* lib.rs:208 *)
Definition HALT_OPCODE : Z := 0x76.      (* lib.rs:210 *)
Definition DI_OPCODE : Z := 0xF3.        (* lib.rs:212 *)
Definition EI_OPCODE : Z := 0xFB.        (* lib.rs:214 *)
Definition RET_OPCODE : Z := 0xC9.       (* lib.rs:216 *)
Definition RET_CC_OPBASE : Z := 0xC0.    (* lib.rs:222 *)
Definition RET_CC_OPMASK : Z := 0xC7.    (* lib.rs:224 *)
Definition RETI_OPCODE_T2 : Z * Z := (ED_PREFIX, 0x4D).  (* lib.rs:226 *)
Definition RETN_OPCODE_T2 : Z * Z := (ED_PREFIX, 0x45).  (* lib.rs:228 *)
Definition RETN_OP2_BASE : Z := 0x45.    (* lib.rs:232 *)
Definition RETN_OP2_MASK : Z := 0xC7.    (* lib.rs:234 *)
Definition CALL_OPCODE : Z := 0xCD.      (* lib.rs:236 *)
Definition CALL_CC_OPBASE : Z := 0xC4.   (* lib.rs:242 *)
Definition CALL_CC_OPMASK : Z := 0xC7.   (* lib.rs:244 *)
Definition JP_OPCODE : Z := 0xC3.        (* lib.rs:246 *)
Definition JP_CC_OPBASE : Z := 0xC2.     (* lib.rs:252 *)
Definition JP_CC_OPMASK : Z := 0xC7.     (* lib.rs:254 *)
Definition JR_OPCODE : Z := 0x18.        (* lib.rs:256 *)
Definition JR_CC_OPBASE : Z := 0x20.     (* lib.rs:264 *)
Definition JR_CC_OPMASK : Z := 0xE7.     (* lib.rs:266 *)
(* lib.rs:268-282 *)
Definition RST_OPCODES : list Z := [0xC7; 0xCF; 0xD7; 0xDF; 0xE7; 0xEF; 0xF7; 0xFF].
Definition RST_OPBASE : Z := 0xC7.       (* lib.rs:289 *)
Definition RST_OPMASK : Z := 0xC7.       (* lib.rs:291 *)
Definition DJNZ_OPCODE : Z := 0x10.      (* lib.rs:293 *)

(** The discriminants of the enums, returned by [to_code] (macros of parse.rs:65-190). *)
(* parse.rs:258-271 *)
Definition cond_to_code (c : Condition) : Z :=
  match c with NZ => 0x00 | CZ => 0x08 | NC => 0x10 | CC => 0x18 | PO => 0x20 | PE => 0x28 | CP_ => 0x30 | CM => 0x38 end.
(* parse.rs:192-207 *)
Definition reg8_to_code (g : Reg8) : Z := match g with B => 0 | C => 1 | D => 2 | E => 3 | H => 4 | L => 5 | A => 7 end.
(* parse.rs:209-218 *)
Definition stkreg16_to_code (s : StkReg16) : Z := match s with SBC => 0x00 | SDE => 0x10 | SHL => 0x20 | SAF => 0x30 end.
(* parse.rs:220-228 *)
Definition reg16_to_code (s : Reg16) : Z := match s with BC => 0x00 | DE => 0x10 | HL => 0x20 | SP => 0x30 end.
(* parse.rs:230-242 *)
Definition ops8_to_code (o : Ops8) : Z :=
  match o with ADD => 0x00 | ADC => 0x08 | SUB => 0x10 | SBC8 => 0x18 | AND => 0x20 | XOR => 0x28 | OR => 0x30 | CP => 0x38 end.
(* parse.rs:244-256 *)
Definition rot_to_code (o : Rot) : Z :=
  match o with RLC => 0x00 | RRC => 0x08 | RL => 0x10 | RR => 0x18 | SLA => 0x20 | SRA => 0x28 | SLL => 0x30 | SRL => 0x38 end.
(* parse.rs:42-52 *)
Definition prefix_try_from (code : Z) : option Prefix := if code =? 0xDD then Some Xdd else if code =? 0xFD then Some Yfd else None.
(* registers.rs:49-74 *)
Definition im_to_mode_number (m : InterruptMode) : Z := match m with Mode0 => 0 | Mode1 => 1 | Mode2 => 2 end.
Definition im_try_from (n : Z) : option InterruptMode :=
  if n =? 0 then Some Mode0 else if n =? 1 then Some Mode1 else if n =? 2 then Some Mode2 else None.
(* parse.rs:295-311 *)
Definition cond_from_str (s : string) : option Condition :=
  (if s =? "NZ" then Some NZ else if s =? "Z" then Some CZ else if s =? "NC" then Some NC else if s =? "C" then Some CC
   else if s =? "PO" then Some PO else if s =? "PE" then Some PE else if s =? "P" then Some CP_ else if s =? "M" then Some CM else None)%string.
