(** Model of src/cpu/parse.rs: op-code field parsers, and of the debugger data types of
    src/cpu/debug.rs:59-136. *)
From Coq Require Import ZArith Bool List String.
From Verif Require Import Base Flags.
Import ListNotations.
Open Scope Z_scope.

(* parse.rs:15-24 *)
Inductive Prefix := Xdd | Yfd.
Definition prefix_to_code (p : Prefix) : Z := match p with Xdd => 0xDD | Yfd => 0xFD end.
(* registers.rs:17-25 *)
Inductive InterruptMode := Mode0 | Mode1 | Mode2.

(* parse.rs:192-207 *)
Inductive Reg8 := B | C | D | E | H | L | A.
(* parse.rs:209-218 *)
Inductive StkReg16 := SBC | SDE | SHL | SAF.
(* parse.rs:220-228 *)
Inductive Reg16 := BC | DE | HL | SP.
(* parse.rs:230-242 *)
Inductive Ops8 := ADD | ADC | SUB | SBC8 | AND | XOR | OR | CP.
(* parse.rs:244-256 *)
Inductive Rot := RLC | RRC | RL | RR | SLA | SRA | SLL | SRL.
(* parse.rs:258-271 *)
Inductive Condition := NZ | CZ | NC | CC | PO | PE | CP_ | CM.

(** The parsers generated by [reg_enum_mask_from!] (parse.rs:65-190) match the masked code against
    every enumerated value and end in [_ => unreachable_unchecked()].  Here the last enumerated value
    is the default arm; [Unreach.v] proves that the masked code is always one of the enumerated ones. *)
Definition reg8_values : list Z := [0;1;2;3;4;5;7;6].
Definition rp_values : list Z := [0x00;0x10;0x20;0x30].
Definition y_values : list Z := [0x00;0x08;0x10;0x18;0x20;0x28;0x30;0x38].
Definition bitops_values : list Z := [0x00;0x40;0x80;0xC0].

(* parse.rs:65-123 with 192-207: [Err(())] for 0b110 *)
Definition reg8_try_from (code : Z) : option Reg8 :=
  let c := Z.land code 7 in
  if c =? 0 then Some B else if c =? 1 then Some C else if c =? 2 then Some D
  else if c =? 3 then Some E else if c =? 4 then Some H else if c =? 5 then Some L
  else if c =? 7 then Some A else None.
Definition stkreg16_from (code : Z) : StkReg16 :=
  let c := Z.land code 0x30 in
  if c =? 0 then SBC else if c =? 0x10 then SDE else if c =? 0x20 then SHL else SAF.
Definition reg16_from (code : Z) : Reg16 :=
  let c := Z.land code 0x30 in
  if c =? 0 then BC else if c =? 0x10 then DE else if c =? 0x20 then HL else SP.
Definition ops8_from (code : Z) : Ops8 :=
  let c := Z.land code 0x38 in
  if c =? 0 then ADD else if c =? 0x08 then ADC else if c =? 0x10 then SUB
  else if c =? 0x18 then SBC8 else if c =? 0x20 then AND else if c =? 0x28 then XOR
  else if c =? 0x30 then OR else CP.
Definition rot_from (code : Z) : Rot :=
  let c := Z.land code 0x38 in
  if c =? 0 then RLC else if c =? 0x08 then RRC else if c =? 0x10 then RL
  else if c =? 0x18 then RR else if c =? 0x20 then SLA else if c =? 0x28 then SRA
  else if c =? 0x30 then SLL else SRL.
Definition cond_from (code : Z) : Condition :=
  let c := Z.land code 0x38 in
  if c =? 0 then NZ else if c =? 0x08 then CZ else if c =? 0x10 then NC
  else if c =? 0x18 then CC else if c =? 0x20 then PO else if c =? 0x28 then PE
  else if c =? 0x30 then CP_ else CM.
(* parse.rs:273-278 *)
Definition cond_from_jr_subset (code : Z) : Condition := cond_from (Z.land code 0x18).
(* parse.rs:279-292 *)
Definition is_satisfied (c : Condition) (f : Z) : bool :=
  match c with
  | NZ => negb (contains f FZ) | CZ => contains f FZ
  | NC => negb (contains f FC) | CC => contains f FC
  | PO => negb (contains f FPV) | PE => contains f FPV
  | CP_ => negb (contains f FS) | CM => contains f FS
  end.
(* parse.rs:313-330 *)
Definition reg8_b5_3 (code : Z) : option Reg8 := reg8_try_from (Z.shiftr code 3).
Definition reg8_b2_0 (code : Z) : option Reg8 := reg8_try_from code.

(* parse.rs:359-371 *)
Inductive BitOps :=
| BRot (r : Rot) (arg : option Reg8)
| BBit (b : Z) (arg : option Reg8)
| BRes (b : Z) (arg : option Reg8)
| BSet (b : Z) (arg : option Reg8).
(* parse.rs:373-376 *)
Definition parse_code_bitnum (code : Z) : Z := Z.land (Z.shiftr code 3) 7.
(* parse.rs:378-391 *)
Definition bitops_from (code : Z) : BitOps :=
  let arg := reg8_b2_0 code in
  let c := Z.land code 0xC0 in
  if c =? 0x00 then BRot (rot_from code) arg
  else if c =? 0x40 then BBit (parse_code_bitnum code) arg
  else if c =? 0x80 then BRes (parse_code_bitnum code) arg
  else BSet (parse_code_bitnum code) arg.
(* parse.rs:393-397 *)
Definition parse_restart_address (code : Z) : Z := Z.land code 0x38.

(** ** Debugger data, src/cpu/debug.rs:59-136 *)
Inductive CpuDebugAddr :=
| ImmAddr (nn : Z) | RegAddr (r : Reg16) | IndexAddr (p : Prefix) (d : option Z).
Inductive CpuDebugPort := ImmPort (n : Z) | RegPort.
Inductive CpuDebugArg :=
| DImm8 (n : Z) | DBit (b : Z) | DIntMode (m : InterruptMode) | DReg8 (p : option Prefix) (r : Reg8)
| DImm16 (nn : Z) | DReg16 (p : option Prefix) (r : Reg16) | DStk16 (r : StkReg16)
| DAddr (a : CpuDebugAddr) | DPort (p : CpuDebugPort) | DCond (c : Condition) | DI | DR.
Inductive CpuDebugArgs :=
| ANone | ASingle (a : CpuDebugArg) | ADouble (a b : CpuDebugArg)
| ABitOpExt (b : Z) (a : CpuDebugArg) (r : Reg8).
Record CpuDebug := mkDebug {
  dcode : list Z; dmnemonic : string; dpc : Z; dprefix : option Prefix; dargs : CpuDebugArgs }.

(* [Into<&'static str>] generated by reg_enum_mask_from!, parse.rs:65-190 *)
Open Scope string_scope.
Definition ops8_str (o : Ops8) : string :=
  match o with ADD => "ADD" | ADC => "ADC" | SUB => "SUB" | SBC8 => "SBC"
             | AND => "AND" | XOR => "XOR" | OR => "OR" | CP => "CP" end.
Definition rot_str (o : Rot) : string :=
  match o with RLC => "RLC" | RRC => "RRC" | RL => "RL" | RR => "RR"
             | SLA => "SLA" | SRA => "SRA" | SLL => "SLL" | SRL => "SRL" end.
