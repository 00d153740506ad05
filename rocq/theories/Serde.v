(** Model of src/z80/serde.rs and of the serde implementations of src/z80/flavours.rs:55-85, src/cpu/registers.rs:13-47,
    206-292 and src/cpu/parse.rs:14-24, over serde's data model.

    [sval]: what [Serialize] hands to the format.  [val]: what the format hands back, one constructor for each kind
    of [Visitor] method.  The formats themselves (serde_json, bincode, ...) are not modelled.  The text of errors is not
    modelled.  Keys of maps are strings (a format could also use field numbers or byte strings).  Whether elements left in
    a sequence are an error is up to the format; the visitors ignore them. *)
From Coq Require Import ZArith Bool String Ascii List.
From Verif Require Import Base Parse Cpu Flavours Any.
Import ListNotations.
Open Scope Z_scope.

(** ** Serialization *)
Inductive sval :=
| SBool (b : bool) | SU8 (n : Z) | SU16 (n : Z) | SStr (s : string)
| SVariant (i : Z) (name : string)      (* serialize_unit_variant *)
| SNone | SSome (s : sval)
| SStruct (fs : list (string * sval)).

(* registers.rs:206-213 *)
Definition ser_pair (n : Z) : sval := SU16 n.
(* registers.rs:32-39: derived *)
Definition ser_regs (b d h : Z) : sval := SStruct [("bc", ser_pair b); ("de", ser_pair d); ("hl", ser_pair h)]%string.
(* registers.rs:41-47: derived *)
Definition ser_index (x y : Z) : sval := SStruct [("ix", ser_pair x); ("iy", ser_pair y)]%string.
(* registers.rs:13-25: derived *)
Definition ser_im (m : InterruptMode) : sval :=
  match m with Mode0 => SVariant 0 "Mode0" | Mode1 => SVariant 1 "Mode1" | Mode2 => SVariant 2 "Mode2" end.
(* parse.rs:16-24: derived, and the implementation of Serialize for Option *)
Definition ser_prefix (p : option Prefix) : sval :=
  match p with None => SNone | Some Xdd => SSome (SVariant 0 "Xdd") | Some Yfd => SSome (SVariant 1 "Yfd") end.
(* flavours.rs:55-64 and 77-85: derived, names converted to camel case *)
Definition ser_q (q : qstate) : sval := SStruct [("flagsModified", SBool (q_modified q)); ("lastFlagsModified", SBool (q_last q))]%string.
(* flavours.rs:66-70: [into = "NMOS"] *)
Definition ser_unit (u : unit) : sval := ser_q (cmos_to_nmos u).

(* serde.rs:19-44 *)
Definition ser_fields {Q} (tag : string) (serq : Q -> sval) (c : cpu Q) : list (string * sval) :=
  [("type", SStr tag); ("af", ser_pair (af c)); ("afAlt", ser_pair (af_alt c)); ("regs", ser_regs (bc c) (de c) (hl c));
   ("regsAlt", ser_regs (bc_alt c) (de_alt c) (hl_alt c)); ("index", ser_index (ix c) (iy c)); ("pc", ser_pair (pc c));
   ("sp", ser_pair (sp c)); ("memptr", ser_pair (memptr c)); ("lastEi", SBool (last_ei c)); ("ir", ser_pair (ir c));
   ("im", ser_im (im c)); ("iff1", SBool (iff1 c)); ("iff2", SBool (iff2 c)); ("halt", SBool (halt c));
   ("prefix", ser_prefix (prefix c)); ("r", SU8 (r c)); ("flavour", serq (flavour c))]%string.
(** flavours.rs:91-93, 130-132, 157-159: the tags. *)
Definition ser_nmos (c : cpu qstate) : sval := SStruct (ser_fields "NMOS" ser_q c).
Definition ser_cmos (c : cpu unit) : sval := SStruct (ser_fields "CMOS" ser_unit c).
Definition ser_bm1 (c : cpu qstate) : sval := SStruct (ser_fields "BM1" ser_q c).
(* serde.rs:46-56 *)
Definition ser_any (a : z80any) : sval := match a with AnyNMOS c => ser_nmos c | AnyCMOS c => ser_cmos c | AnyBM1 c => ser_bm1 c end.

(** ** Deserialization *)
Inductive val :=
| VBool (b : bool)
| VU (n : Z)                       (* visit_u8, visit_u32, visit_u64 *)
| VI (n : Z)                       (* visit_i8, visit_i32, visit_i64 *)
| VU16 (n : Z)                     (* visit_u16 *)
| VI16 (n : Z)                     (* visit_i16 *)
| VStr (s : string)
| VNone | VSome (v : val)          (* visit_none, visit_some *)
| VSeq (hint : option nat) (l : list val)     (* visit_seq, with SeqAccess::size_hint *)
| VMap (l : list (string * val)).             (* visit_map *)

(** [unwrap_cpu_any] can panic. *)
Inductive dres (A : Type) := DOk (a : A) | DErr | DPanic.
Arguments DOk {A}. Arguments DErr {A}. Arguments DPanic {A}.

Definition obind {A B} (x : option A) (f : A -> option B) : option B := match x with Some a => f a | None => None end.
Notation "a <~ x ; f" := (obind x (fun a => f)) (at level 61, x at next level, right associativity).

(** serde's implementations for [bool], [Cow<str>], integers and [Option] (a value that is not none counts as present). *)
Definition de_bool (v : val) : option bool := match v with VBool b => Some b | _ => None end.
Definition de_str (v : val) : option string := match v with VStr s => Some s | _ => None end.
Definition de_u8 (v : val) : option Z :=
  match v with VU n | VI n | VU16 n | VI16 n => if (0 <=? n) && (n <=? 255) then Some n else None | _ => None end.
Definition de_option {A} (d : val -> option A) (v : val) : option (option A) :=
  match v with VNone => Some None | VSome w => x <~ d w; Some (Some x) | _ => x <~ d v; Some (Some x) end.
(** Derived unit variants: by name or by number. *)
Definition de_variant {A} (names : list (string * A)) (v : val) : option A :=
  match v with
  | VStr s => option_map snd (find (fun x => String.eqb (fst x) s) names)
  | VU n => if 0 <=? n then option_map snd (nth_error names (Z.to_nat n)) else None
  | _ => None
  end.

(** [u16::from_str_radix(s, 16)]: an optional plus sign, then one or more digits, the value less than 65536. *)
Definition digit16 (ch : ascii) : option Z :=
  let n := Z.of_nat (nat_of_ascii ch) in
  if (48 <=? n) && (n <=? 57) then Some (n - 48)
  else if (65 <=? n) && (n <=? 70) then Some (n - 55)
  else if (97 <=? n) && (n <=? 102) then Some (n - 87) else None.
Fixpoint digits16 (s : string) (acc : Z) : option Z :=
  match s with
  | EmptyString => Some acc
  | String ch s => d <~ digit16 ch; if acc * 16 + d <=? 65535 then digits16 s (acc * 16 + d) else None
  end.
Definition from_str_radix16 (s : string) : option Z :=
  match s with
  | EmptyString => None
  | String ch rest =>
      if Ascii.eqb ch "+" then match rest with EmptyString => None | _ => digits16 rest 0 end else digits16 s 0
  end.
(* registers.rs:264-272 *)
Definition strip_hex (s : string) : string :=
  match s with
  | String ch rest =>
      if Ascii.eqb ch "$" then rest
      else if Ascii.eqb ch "0" then match rest with String ch2 rest2 => if Ascii.eqb ch2 "x" then rest2 else s | EmptyString => s end
      else s
  | EmptyString => s
  end.
(* registers.rs:215-292; [as i16] and [RegisterPair::from(i16)] are reinterpretations of the bits *)
Definition de_pair (v : val) : option Z :=
  match v with
  | VU16 n => Some n                                                               (* 230-232 *)
  | VI16 n => Some (u16 n)                                                         (* 226-228 *)
  | VI n => if (-32768 <=? n) && (n <=? 32767) then Some (u16 n) else None          (* 234-240 *)
  | VU n => if n <=? 65535 then Some n else None                                    (* 242-248 *)
  | VSeq _ l =>                                                                     (* 250-261 *)
      match l with
      | [vl; vh] => lo <~ de_u8 vl; hi <~ de_u8 vh; Some (mk16 hi lo)
      | _ => None
      end
  | VStr s => from_str_radix16 (strip_hex s)                                        (* 263-276 *)
  | _ => None
  end.

(** Derived visitors of structs whose fields all have the type [X]: unknown keys are ignored, a field given twice is an error. *)
Definition keyof {F} (keys : list (string * F)) (k : string) : option F := option_map snd (find (fun x => String.eqb (fst x) k) keys).
Definition upd_nat {X} (acc : nat -> option X) (i : nat) (x : X) : nat -> option X := fun j => if Nat.eqb i j then Some x else acc j.
Fixpoint read_named {X} (d : val -> option X) (keys : list (string * nat)) (l : list (string * val)) (acc : nat -> option X)
  : option (nat -> option X) :=
  match l with
  | [] => Some acc
  | (k, v) :: l =>
      match keyof keys k with
      | None => read_named d keys l acc
      | Some i => match acc i with Some _ => None | None => x <~ d v; read_named d keys l (upd_nat acc i x) end
      end
  end.
Definition none_nat {X} : nat -> option X := fun _ => None.
(* registers.rs:32-39 *)
Definition de_regs (v : val) : option (Z * Z * Z) :=
  match v with
  | VSeq _ (a :: b :: c :: _) => x <~ de_pair a; y <~ de_pair b; z <~ de_pair c; Some (x, y, z)
  | VMap l => acc <~ read_named de_pair [("bc", 0%nat); ("de", 1%nat); ("hl", 2%nat)]%string l none_nat;
              x <~ acc 0%nat; y <~ acc 1%nat; z <~ acc 2%nat; Some (x, y, z)
  | _ => None
  end.
(* registers.rs:41-47 *)
Definition de_index (v : val) : option (Z * Z) :=
  match v with
  | VSeq _ (a :: b :: _) => x <~ de_pair a; y <~ de_pair b; Some (x, y)
  | VMap l => acc <~ read_named de_pair [("ix", 0%nat); ("iy", 1%nat)]%string l none_nat;
              x <~ acc 0%nat; y <~ acc 1%nat; Some (x, y)
  | _ => None
  end.
Definition or_false (x : option bool) : bool := match x with Some b => b | None => false end.
(* flavours.rs:55-64, 77-85: [serde(default)], aliases in camel case *)
Definition de_q (v : val) : option qstate :=
  match v with
  | VSeq _ [] => Some q_default
  | VSeq _ [a] => x <~ de_bool a; Some (mkQ x (q_last q_default))
  | VSeq _ (a :: b :: _) => x <~ de_bool a; y <~ de_bool b; Some (mkQ x y)
  | VMap l => acc <~ read_named de_bool [("flags_modified", 0%nat); ("flagsModified", 0%nat);
                                         ("last_flags_modified", 1%nat); ("lastFlagsModified", 1%nat)]%string l none_nat;
              Some (mkQ (or_false (acc 0%nat)) (or_false (acc 1%nat)))
  | _ => None
  end.
(* flavours.rs:66-70: [from = "NMOS"] *)
Definition de_unit (v : val) : option unit := q <~ de_q v; Some (nmos_to_cmos q).
Definition de_im : val -> option InterruptMode := de_variant [("Mode0", Mode0); ("Mode1", Mode1); ("Mode2", Mode2)]%string.
Definition de_prefix : val -> option (option Prefix) := de_option (de_variant [("Xdd", Xdd); ("Yfd", Yfd)]%string).

(** serde.rs:79-100: [Z80Field], with the names it is read from. *)
Inductive field := FType | FAf | FAfAlt | FRegs | FRegsAlt | FIndex | FPc | FSp | FMemptr | FLastEi | FIr | FIm | FIff1 | FIff2
                 | FHalt | FPrefix | FR | FFlavour.
Definition z80_keys : list (string * field) :=
  [("type", FType); ("af", FAf); ("afAlt", FAfAlt); ("af_alt", FAfAlt); ("regs", FRegs); ("regsAlt", FRegsAlt); ("regs_alt", FRegsAlt);
   ("index", FIndex); ("pc", FPc); ("sp", FSp); ("memptr", FMemptr); ("lastEi", FLastEi); ("last_ei", FLastEi); ("ir", FIr);
   ("im", FIm); ("iff1", FIff1); ("iff2", FIff2); ("halt", FHalt); ("prefix", FPrefix); ("r", FR); ("flavour", FFlavour)]%string.
Definition field_eq (f g : field) : {f = g} + {f <> g}.
Proof. decide equality. Defined.
(** The local variables of [visit_map], serde.rs:237-254, by field. *)
Inductive fval := XStr (s : string) | XPair (n : Z) | XRegs (b d h : Z) | XIndex (x y : Z) | XBool (b : bool) | XIm (m : InterruptMode)
                | XPrefix (p : option Prefix) | XU8 (n : Z) | XFlavour (q : qstate).
Definition locals := field -> option fval.
Definition no_locals : locals := fun _ => None.
Definition set_local (a : locals) (f : field) (x : fval) : locals := fun g => if field_eq f g then Some x else a g.
(** [map.next_value()] at the type of the variable. *)
Definition next_value (f : field) (v : val) : option fval :=
  match f with
  | FType => option_map XStr (de_str v)
  | FAf | FAfAlt | FPc | FSp | FMemptr | FIr => option_map XPair (de_pair v)
  | FRegs | FRegsAlt => x <~ de_regs v; let '(b, d, h) := x in Some (XRegs b d h)
  | FIndex => x <~ de_index v; let '(x, y) := x in Some (XIndex x y)
  | FLastEi | FIff1 | FIff2 | FHalt => option_map XBool (de_bool v)
  | FIm => option_map XIm (de_im v)
  | FPrefix => option_map XPrefix (de_prefix v)
  | FR => option_map XU8 (de_u8 v)
  | FFlavour => option_map XFlavour (de_q v)
  end.
(* serde.rs:256-277 with 221-230: keys that are not a [Z80Field] and fields given twice are errors *)
Fixpoint read_fields (l : list (string * val)) (a : locals) : option locals :=
  match l with
  | [] => Some a
  | (k, v) :: l =>
      f <~ keyof z80_keys k;
      match a f with Some _ => None | None => x <~ next_value f v; read_fields l (set_local a f x) end
  end.
Definition g_str (x : option fval) := match x with Some (XStr s) => Some s | _ => None end.
Definition g_pair (x : option fval) := match x with Some (XPair n) => Some n | _ => None end.
Definition g_regs (x : option fval) := match x with Some (XRegs b d h) => Some (b, d, h) | _ => None end.
Definition g_index (x : option fval) := match x with Some (XIndex a b) => Some (a, b) | _ => None end.
Definition g_bool (x : option fval) := match x with Some (XBool b) => Some b | _ => None end.
Definition g_im (x : option fval) := match x with Some (XIm m) => Some m | _ => None end.
Definition g_prefix (x : option fval) := match x with Some (XPrefix p) => Some p | _ => None end.
Definition g_u8 (x : option fval) := match x with Some (XU8 n) => Some n | _ => None end.
Definition g_flavour (x : option fval) := match x with Some (XFlavour q) => Some q | _ => None end.
Definition or_else {A} (x : option A) (d : A) : A := match x with Some a => a | None => d end.
(* serde.rs:234-355 *)
Definition visit_map (l : list (string * val)) (force : option string) : option z80any :=
  a <~ read_fields l no_locals;
  af <~ g_pair (a FAf); afa <~ g_pair (a FAfAlt);
  rg <~ g_regs (a FRegs); let '(b, d, h) := rg in
  rga <~ g_regs (a FRegsAlt); let '(ba, da, ha) := rga in
  ind <~ g_index (a FIndex); let '(x, y) := ind in
  pc <~ g_pair (a FPc); sp <~ g_pair (a FSp);
  let memptr := or_else (g_pair (a FMemptr)) 0 in
  ei <~ g_bool (a FLastEi); ir <~ g_pair (a FIr); im <~ g_im (a FIm);
  if1 <~ g_bool (a FIff1); if2 <~ g_bool (a FIff2); halt <~ g_bool (a FHalt); px <~ g_prefix (a FPrefix);
  let r := or_else (g_u8 (a FR)) (lo8 ir) in
  let q := a FFlavour in
  let mk {Q} (f : Q) := mkCpu af afa b d h ba da ha x y pc sp memptr ei ir im if1 if2 halt px r f in
  let v := match force with Some t => t | None => or_else (g_str (a FType)) "NMOS"%string end in
  (if v =? "NMOS" then Some (AnyNMOS (mk (or_else (g_flavour q) q_default)))
   else if v =? "CMOS" then Some (AnyCMOS (mk tt))
   else if v =? "BM1" then Some (AnyBM1 (mk (or_else (option_map nmos_to_bm1 (g_flavour q)) q_default)))
   else None)%string.
(* serde.rs:177-219 *)
Definition visit_seq {Q} (deq : val -> option Q) (l : list val) : option (cpu Q) :=
  match l with
  | v1 :: v2 :: v3 :: v4 :: v5 :: v6 :: v7 :: v8 :: v9 :: v10 :: v11 :: v12 :: v13 :: v14 :: v15 :: v16 :: v17 :: _ =>
      af <~ de_pair v1; afa <~ de_pair v2;
      rg <~ de_regs v3; let '(b, d, h) := rg in
      rga <~ de_regs v4; let '(ba, da, ha) := rga in
      ind <~ de_index v5; let '(x, y) := ind in
      pc <~ de_pair v6; sp <~ de_pair v7; memptr <~ de_pair v8;
      ei <~ de_bool v9; ir <~ de_pair v10; im <~ de_im v11;
      if1 <~ de_bool v12; if2 <~ de_bool v13; halt <~ de_bool v14; px <~ de_prefix v15; r <~ de_u8 v16;
      q <~ deq v17;
      Some (mkCpu af afa b d h ba da ha x y pc sp memptr ei ir im if1 if2 halt px r q)
  | _ => None
  end.
(** The parts of a sequence: the tag, unless there are 17 elements to come. *)
Definition seq_tag (hint : option nat) (l : list val) : option (option string * list val) :=
  match hint with
  | Some 17%nat => Some (None, l)
  | _ => match l with v :: l => s <~ de_str v; Some (Some s, l) | [] => None end
  end.
Definition to_dres {A} (x : option A) : dres A := match x with Some a => DOk a | None => DErr end.
(** serde.rs:102-139, with [unwrap_cpu_any] of flavours.rs:121-123, 148-150, 187-189 and any.rs:148-181. *)
Definition de_z80 {Q} (tag : string) (unwrap : z80any -> option (cpu Q)) (deq : val -> option Q) (v : val) : dres (cpu Q) :=
  match v with
  | VSeq hint l =>
      to_dres (tl <~ seq_tag hint l;
               match fst tl with
               | None => visit_seq deq (snd tl)
               | Some t => if ((t =? "NMOS") || (t =? "CMOS") || (t =? "BM1"))%string then visit_seq deq (snd tl) else None
               end)
  | VMap l => match visit_map l (Some tag) with None => DErr | Some a => match unwrap a with Some c => DOk c | None => DPanic end end
  | _ => DErr
  end.
Definition de_nmos : val -> dres (cpu qstate) := de_z80 "NMOS" unwrap_nmos de_q.
Definition de_cmos : val -> dres (cpu unit) := de_z80 "CMOS" unwrap_cmos de_unit.
Definition de_bm1 : val -> dres (cpu qstate) := de_z80 "BM1" unwrap_bm1 de_q.
(* serde.rs:141-175 *)
Definition de_any (v : val) : option z80any :=
  match v with
  | VSeq hint l =>
      tl <~ seq_tag hint l;
      match fst tl with
      | None => option_map AnyNMOS (visit_seq de_q (snd tl))
      | Some t => (if t =? "NMOS" then option_map AnyNMOS (visit_seq de_q (snd tl))
                   else if t =? "CMOS" then option_map AnyCMOS (visit_seq de_unit (snd tl))
                   else if t =? "BM1" then option_map AnyBM1 (visit_seq de_q (snd tl)) else None)%string
      end
  | VMap l => visit_map l None
  | _ => None
  end.
