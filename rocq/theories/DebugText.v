(** Model of the [Debug] text of [Z80] (src/z80/debug.rs:12-39) and of [Z80Any] (derived, src/z80/any.rs:41-46).

    Of core::fmt: [debug_struct], [debug_tuple] with one field, and the flags [#], [x], [X] of [{:?}]; not width or
    precision. *)
From Coq Require Import ZArith Bool String Ascii List.
From Verif Require Import Base Parse Cpu Flavours Any Format.
Import ListNotations.
Open Scope string_scope.
Open Scope list_scope.
Open Scope Z_scope.

(** ** core::fmt::builders *)
Definition nlc : ascii := "010"%char.
Definition nl : string := String nlc "".
(** [PadAdapter]: four spaces at the start of every line. *)
Fixpoint indent (start : bool) (s : string) : string :=
  match s with
  | "" => ""
  | String c s => ((if start then "    " else "") ++ String c (indent (Ascii.eqb c nlc) s))%string
  end.
Definition debug_struct (alt : bool) (name : string) (fields : list (string * string)) : string :=
  let text f := (fst f ++ ": " ++ snd f)%string in
  (name ++
  match fields with
  | [] => ""
  | _ => if alt then " {" ++ nl ++ String.concat "" (map (fun f => indent true (text f ++ "," ++ nl)) fields) ++ "}"
         else " { " ++ String.concat ", " (map text fields) ++ " }"
  end)%string.
Definition debug_tuple1 (alt : bool) (name value : string) : string :=
  (name ++ if alt then "(" ++ nl ++ indent true (value ++ "," ++ nl) ++ ")" else "(" ++ value ++ ")")%string.
(** [Debug] of the integers: [{:?}], [{:x?}], [{:X?}] and these with [#]. *)
Definition dbg_int (x : radix) (alt : bool) (n : Z) : string :=
  match x with Dec => dec n | _ => ((if alt then "0x" else "") ++ num 16 (upper x) n)%string end.
Definition dbg_bool (b : bool) : string := if b then "true" else "false".
(* registers.rs:14-24, derived *)
Definition dbg_im (m : InterruptMode) : string := match m with Mode0 => "Mode0" | Mode1 => "Mode1" | Mode2 => "Mode2" end.
(* parse.rs:15-24, derived *)
Definition dbg_prefix (alt : bool) (p : option Prefix) : string :=
  match p with None => "None" | Some p => debug_tuple1 alt "Some" (match p with Xdd => "Xdd" | Yfd => "Yfd" end) end.

(* debug.rs:12-39 *)
Definition debug_text {Q} (x : radix) (alt : bool) (c : cpu Q) : string :=
  let int := dbg_int x alt in
  debug_struct alt "Z80"
    [("pc", int (pc c)); ("sp", int (sp c)); ("af", int (af c)); ("bc", int (bc c)); ("de", int (de c)); ("hl", int (hl c));
     ("af'", int (af_alt c)); ("bc'", int (bc_alt c)); ("de'", int (de_alt c)); ("hl'", int (hl_alt c));
     ("ix", int (ix c)); ("iy", int (iy c)); ("ir", int (ir c)); ("r", int (r c)); ("im", dbg_im (im c));
     ("iff1", dbg_bool (iff1 c)); ("iff2", dbg_bool (iff2 c)); ("halt", dbg_bool (halt c)); ("ei", dbg_bool (last_ei c));
     ("mp", int (memptr c)); ("prefix", dbg_prefix alt (prefix c))].
(* any.rs:41-46, derived *)
Definition any_debug_text (x : radix) (alt : bool) (a : z80any) : string :=
  match a with
  | AnyNMOS c => debug_tuple1 alt "NMOS" (debug_text x alt c)
  | AnyCMOS c => debug_tuple1 alt "CMOS" (debug_text x alt c)
  | AnyBM1 c => debug_tuple1 alt "BM1" (debug_text x alt c)
  end.
