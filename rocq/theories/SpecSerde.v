(** What a serialization format may hand back ([val]) for what was given to it ([sval]). *)
From Coq Require Import ZArith Bool String List Permutation.
From Verif Require Import Base Parse Cpu Flavours Any Serde.
Import ListNotations.
Open Scope Z_scope.

(** Maps may use the older names of fields. *)
Definition old_names : list (string * string) :=
  [("afAlt", "af_alt"); ("regsAlt", "regs_alt"); ("lastEi", "last_ei");
   ("flagsModified", "flags_modified"); ("lastFlagsModified", "last_flags_modified")]%string.
Definition key_for (k k' : string) : Prop := k' = k \/ In (k, k') old_names.

(** [big]: does the format deliver integers above 32767 as 64-bit signed ones? *)
Inductive carries (big : bool) : sval -> val -> Prop :=
| K_bool b : carries big (SBool b) (VBool b)
| K_str s : carries big (SStr s) (VStr s)
| K_u8 n : carries big (SU8 n) (VU n)
| K_u8_signed n : carries big (SU8 n) (VI n)
| K_u16 n : carries big (SU16 n) (VU n)
| K_u16_exact n : carries big (SU16 n) (VU16 n)
| K_u16_signed n : n < 0x8000 \/ big = true -> carries big (SU16 n) (VI n)
| K_variant_name i s : carries big (SVariant i s) (VStr s)
| K_variant_number i s : carries big (SVariant i s) (VU i)
| K_none : carries big SNone VNone
| K_some s v : carries big s v -> carries big (SSome s) (VSome v)
| K_some_bare s v : carries big s v -> carries big (SSome s) v
| K_seq fs vs hint : Forall2 (fun f v => carries big (snd f) v) fs vs -> hint = None \/ hint = Some (length fs) ->
    carries big (SStruct fs) (VSeq hint vs)
| K_map fs fs' l : Permutation fs fs' -> Forall2 (fun f e => key_for (fst f) (fst e) /\ carries big (snd f) (snd e)) fs' l ->
    carries big (SStruct fs) (VMap l).

(** A map with some of the fields: [keep] tells which. *)
Definition map_of (big : bool) (keep : string -> bool) (s : sval) (l : list (string * val)) : Prop :=
  exists fs fs', s = SStruct fs /\ Permutation (filter (fun f => keep (fst f)) fs) fs' /\
                 Forall2 (fun f e => key_for (fst f) (fst e) /\ carries big (snd f) (snd e)) fs' l.
(** The fields that may be left out, and what they become. *)
Definition may_drop : list string := ["type"; "memptr"; "r"; "flavour"]%string.
Definition defaulted {Q} (keep : string -> bool) (q0 : Q) (c : cpu Q) : cpu Q :=
  mkCpu (af c) (af_alt c) (bc c) (de c) (hl c) (bc_alt c) (de_alt c) (hl_alt c) (ix c) (iy c) (pc c) (sp c)
        (if keep "memptr"%string then memptr c else 0) (last_ei c) (ir c) (im c) (iff1 c) (iff2 c) (halt c) (prefix c)
        (if keep "r"%string then r c else ir c mod 256) (if keep "flavour"%string then flavour c else q0).

(** The numbers a format can deliver through each method. *)
Fixpoint val_ok (v : val) : Prop :=
  match v with
  | VU n => 0 <= n < 2 ^ 64 | VI n => - 2 ^ 63 <= n < 2 ^ 63 | VU16 n => 0 <= n < 65536 | VI16 n => -32768 <= n < 32768
  | VSome v => val_ok v
  | VSeq _ l => (fix all l := match l with [] => True | v :: l => val_ok v /\ all l end) l
  | VMap l => (fix all l := match l with [] => True | (_, v) :: l => val_ok v /\ all l end) l
  | _ => True
  end.

(** The names a key can have, by field. *)
Definition key_names : list (list string) :=
  [["type"]; ["af"]; ["afAlt"; "af_alt"]; ["regs"]; ["regsAlt"; "regs_alt"]; ["index"]; ["pc"]; ["sp"]; ["memptr"]; ["lastEi"; "last_ei"];
   ["ir"]; ["im"]; ["iff1"]; ["iff2"]; ["halt"]; ["prefix"]; ["r"]; ["flavour"]]%string.

(** Register pairs: numbers, signed or not, and two bytes. *)
Definition number_of (v : val) : option (bool * Z) :=
  match v with VU n | VU16 n => Some (false, n) | VI n | VI16 n => Some (true, n) | _ => None end.
Definition byte_of (v : val) (b : Z) : Prop := byte b /\ exists s, number_of v = Some (s, b).
