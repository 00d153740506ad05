(** Model of the textual output of src/cpu/debug.rs:138-438: [Display], [LowerHex] and [UpperHex] of the debugger data,
    and of the names printed by src/cpu/parse.rs.

    The part of core::fmt used is modelled as strings: [write!] with literal text and integers in decimal or
    hexadecimal, [Formatter::pad] and the formatter's flags [alternate], [width], [precision], fill and alignment.
    The receiving formatter itself never fails here (it is the caller's); what can fail is writing into the
    [ArrayString]s of the [pad!] macro, and is then [None].  All text is ASCII, so characters are bytes. *)
From Coq Require Import ZArith Bool String Ascii List.
From Verif Require Import Base Parse.
Import ListNotations.
Open Scope string_scope.
Open Scope Z_scope.

(** ** core::fmt *)
Inductive align := AlLeft | AlRight | AlCenter.
Record formatter := mkFmt { f_alt : bool; f_width : option nat; f_prec : option nat; f_fill : ascii; f_align : option align }.
(** The formatter of a plain [{}] or [{:x}]; with [alt], of [{:#x}]. *)
Definition plain (alt : bool) : formatter := mkFmt alt None None " "%char None.
Fixpoint repc (n : nat) (c : ascii) : string := match n with O => "" | S n => String c (repc n c) end.
(** Formatter::pad: cut to the precision, then fill up to the width, by default on the right. *)
Definition pad (f : formatter) (s : string) : string :=
  let s := match f_prec f with Some p => substring 0 p s | None => s end in
  match f_width f with
  | None => s
  | Some w =>
      let n := (w - String.length s)%nat in
      let pre := match f_align f with Some AlRight => n | Some AlCenter => (n / 2)%nat | _ => O end in
      repc pre (f_fill f) ++ s ++ repc (n - pre) (f_fill f)
  end.
Definition padr (w : nat) (s : string) : string := pad (mkFmt false (Some w) None " "%char None) s.
Definition digit (up : bool) (n : Z) : ascii :=
  ascii_of_nat (Z.to_nat (n + (if n <? 10 then 48 else if up then 55 else 87))).
(** Digits of [n] in base [b], for numbers of at most 32 digits. *)
Fixpoint digits (fuel : nat) (b : Z) (up : bool) (n : Z) (acc : string) : string :=
  match fuel with
  | O => acc
  | S fuel => let acc := String (digit up (n mod b)) acc in
      if n / b =? 0 then acc else digits fuel b up (n / b) acc
  end.
Definition num (b : Z) (up : bool) (n : Z) : string := digits 32 b up n "".
Definition zfill (w : nat) (s : string) : string := repc (w - String.length s) "0" ++ s.
(* [{}], [{:+}] *)
Definition dec (n : Z) : string := num 10 false n.
Definition decs (n : Z) : string := (if n <? 0 then "-" else "+") ++ dec (Z.abs n).
(* [{:0wx}] and [{:#0wx}] (where the width includes the 0x) *)
Definition hex (up : bool) (w : nat) (n : Z) : string := zfill w (num 16 up n).
Definition hexa (up : bool) (w : nat) (n : Z) : string := "0x" ++ zfill (w - 2) (num 16 up n).
(* writing into an [ArrayString<n>]: arrayvec's write_str fails if the text does not fit *)
Definition array_string (n : nat) (s : string) : option string := if (String.length s <=? n)%nat then Some s else None.

(** ** Names, src/cpu/parse.rs *)
(* parse.rs:54-63 *)
Definition prefix_str (p : Prefix) : string := match p with Xdd => "IX" | Yfd => "IY" end.
(* parse.rs:114-121 for 192-207; 181-188 for 209-228, 258-271 *)
Definition reg8_str (r : Reg8) : string :=
  match r with B => "B" | C => "C" | D => "D" | E => "E" | H => "H" | L => "L" | A => "A" end.
Definition reg16_str (r : Reg16) : string := match r with BC => "BC" | DE => "DE" | HL => "HL" | SP => "SP" end.
Definition stkreg16_str (r : StkReg16) : string := match r with SBC => "BC" | SDE => "DE" | SHL => "HL" | SAF => "AF" end.
Definition cond_str (c : Condition) : string :=
  match c with NZ => "NZ" | CZ => "Z" | NC => "NC" | CC => "C" | PO => "PO" | PE => "PE" | CP_ => "P" | CM => "M" end.
(* parse.rs:332-343 *)
Definition reg8_with_prefix (r : Reg8) (p : option Prefix) : string :=
  match r, p with
  | H, Some Xdd => "IXH" | H, Some Yfd => "IYH" | L, Some Xdd => "IXL" | L, Some Yfd => "IYL"
  | _, _ => reg8_str r
  end.
(* parse.rs:346-357 *)
Definition reg16_with_prefix (r : Reg16) (p : option Prefix) : string :=
  match r, p with HL, Some Xdd => "IX" | HL, Some Yfd => "IY" | _, _ => reg16_str r end.

(** ** src/cpu/debug.rs *)
(** Which trait: [Display], [LowerHex], [UpperHex]. *)
Inductive radix := Dec | LHex | UHex.
Definition upper (x : radix) : bool := match x with UHex => true | _ => false end.

(* debug.rs:138-148 *)
Definition addr_disp (a : CpuDebugAddr) : string :=
  match a with
  | ImmAddr nn => "(" ++ dec nn ++ ")"
  | RegAddr r => "(" ++ reg16_str r ++ ")"
  | IndexAddr px (Some d) => "(" ++ prefix_str px ++ decs d ++ ")"
  | IndexAddr px None => "(" ++ prefix_str px ++ ")"
  end.
(* debug.rs:150-202; [0u8.wrapping_sub(d as u8)] *)
Definition addr_hex (up alt : bool) (a : CpuDebugAddr) : string :=
  match a with
  | ImmAddr nn => if alt then "(" ++ hexa up 6 nn ++ ")" else "(" ++ hex up 4 nn ++ "h)"
  | IndexAddr px (Some d) =>
      if 0 <=? d then if alt then "(" ++ prefix_str px ++ "+" ++ hexa up 4 d ++ ")"
                      else "(" ++ prefix_str px ++ "+" ++ hex up 2 d ++ "h)"
      else if alt then "(" ++ prefix_str px ++ "-" ++ hexa up 4 (u8 (0 - u8 d)) ++ ")"
           else "(" ++ prefix_str px ++ "-" ++ hex up 2 (u8 (0 - u8 d)) ++ "h)"
  | _ => addr_disp a
  end.
(* debug.rs:204-212 *)
Definition port_disp (p : CpuDebugPort) : string := match p with ImmPort n => "(" ++ dec n ++ ")" | RegPort => "(C)" end.
(* debug.rs:214-242 *)
Definition port_hex (up alt : bool) (p : CpuDebugPort) : string :=
  match p with
  | ImmPort n => if alt then "(" ++ hexa up 4 n ++ ")" else "(" ++ hex up 2 n ++ "h)"
  | RegPort => port_disp p
  end.
(* debug.rs:244-262 *)
Definition arg_disp (a : CpuDebugArg) : string :=
  match a with
  | DImm8 n => dec n
  | DBit n => dec n
  | DIntMode m => dec (match m with Mode0 => 0 | Mode1 => 1 | Mode2 => 2 end)
  | DReg8 px r => reg8_with_prefix r px
  | DImm16 nn => dec nn
  | DReg16 px r => reg16_with_prefix r px
  | DStk16 r => stkreg16_str r
  | DAddr a => addr_disp a
  | DCond c => cond_str c
  | DPort p => port_disp p
  | DI => "I"
  | DR => "R"
  end.
(* debug.rs:264-308 *)
Definition arg_hex (up alt : bool) (a : CpuDebugArg) : string :=
  match a with
  | DImm8 n => if alt then hexa up 4 n else hex up 2 n ++ "h"
  | DImm16 nn => if alt then hexa up 6 nn else hex up 4 nn ++ "h"
  | DAddr a => addr_hex up alt a
  | DPort p => port_hex up alt p
  | _ => arg_disp a
  end.
Definition arg_str (x : radix) (alt : bool) (a : CpuDebugArg) : string :=
  match x with Dec => arg_disp a | _ => arg_hex (upper x) alt a end.
(* debug.rs:338-346, 357-375, 386-404: the arm without width *)
Definition args_str (x : radix) (alt : bool) (a : CpuDebugArgs) : string :=
  match a with
  | ANone => ""
  | ASingle a => arg_str x alt a
  | ADouble (DStk16 SAF) (DStk16 SAF) => "AF, AF'"
  | ADouble a b => arg_str x alt a ++ ", " ++ arg_str x alt b
  | ABitOpExt b a r => dec b ++ ", " ++ arg_str x alt a ++ ", " ++ reg8_str r
  end.
(* debug.rs:310-330, 336, 355, 384: [pad!] *)
Definition fmt_args (x : radix) (f : formatter) (a : CpuDebugArgs) : option string :=
  match f_width f with
  | Some _ => option_map (pad f) (array_string (match x with Dec => 14 | _ => 15 end) (args_str x (f_alt f) a))
  | None => Some (args_str x (f_alt f) a)
  end.
(* [{:?}] and [{:02x?}] of a byte slice *)
Definition bytes_str (show : Z -> string) (l : list Z) : string := "[" ++ String.concat ", " (map show l) ++ "]".
(* debug.rs:409-438 *)
Definition fmt_debug (x : radix) (f : formatter) (d : CpuDebug) : option string :=
  let width w alt := mkFmt alt (Some w) None " "%char None in
  let line pc args code := option_map (fun s => pc ++ " " ++ padr 4 (dmnemonic d) ++ " " ++ s ++ " " ++ code) args in
  match x with
  | Dec => line (pad (mkFmt false (Some 5%nat) None " "%char (Some AlRight)) (dec (dpc d)))
             (fmt_args Dec (width 14%nat false) (dargs d)) (bytes_str dec (dcode d))
  | _ => if f_alt f then line (hexa (upper x) 6 (dpc d)) (fmt_args x (width 15%nat true) (dargs d)) (bytes_str (hex (upper x) 2) (dcode d))
         else line (hex (upper x) 4 (dpc d) ++ "h") (fmt_args x (width 14%nat false) (dargs d)) (bytes_str (hex (upper x) 2) (dcode d))
  end.
