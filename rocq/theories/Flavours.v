(** The three flavours of the crate: src/z80/flavours.rs:55-228. *)
From Coq Require Import ZArith Bool.
From Verif Require Import Base Parse Cpu.
Open Scope Z_scope.

(** flavours.rs:55-64 [struct NMOS], 72-85 [struct BM1] (same fields). *)
Record qstate := mkQ { q_modified : bool; q_last : bool }.

(* flavours.rs:98-106 *)
Definition q_begin (q : qstate) : qstate := mkQ false (q_modified q).
Definition q_flags_modified (q : qstate) : qstate := mkQ true (q_last q).
(* flavours.rs:107-115 *)
Definition q_get_q (q : qstate) (acc flags : Z) : Z := if q_last q then acc else Z.lor acc flags.
(* flavours.rs:48-52 default reset: [Default::default()] *)
Definition q_default : qstate := mkQ false false.

(* flavours.rs:87-124 *)
Definition NMOS : Flavour qstate :=
  mkFlavour qstate 0 true (fun msb lsb => (msb, u8 (lsb + 1)))
            q_begin q_flags_modified q_get_q (fun _ => q_default).
(* flavours.rs:66-70, 126-151 *)
Definition CMOS : Flavour unit :=
  mkFlavour unit 0xFF false (fun msb lsb => (msb, u8 (lsb + 1)))
            (fun q => q) (fun q => q) (fun _ acc _ => acc) (fun _ => tt).
(* flavours.rs:153-190 *)
Definition BM1 : Flavour qstate :=
  mkFlavour qstate 0 false (fun _ lsb => (0, u8 (lsb + 1)))
            q_begin q_flags_modified q_get_q (fun _ => q_default).

(** Conversions, flavours.rs:192-228. *)
Definition nmos_to_cmos (_ : qstate) : unit := tt.
Definition cmos_to_nmos (_ : unit) : qstate := q_default.
Definition bm1_to_cmos (_ : qstate) : unit := tt.
Definition cmos_to_bm1 (_ : unit) : qstate := q_default.
Definition nmos_to_bm1 (q : qstate) : qstate := q.
Definition bm1_to_nmos (q : qstate) : qstate := q.

(* z80.rs:107-141 [into_flavour]: every field kept, flavour converted *)
Definition into_flavour {Q1 Q2} (f : Q1 -> Q2) (c : cpu Q1) : cpu Q2 :=
  mkCpu (af c) (af_alt c) (bc c) (de c) (hl c) (bc_alt c) (de_alt c) (hl_alt c) (ix c) (iy c) (pc c)
        (sp c) (memptr c) (last_ei c) (ir c) (im c) (iff1 c) (iff2 c) (halt c) (prefix c) (r c)
        (f (flavour c)).
(* z80.rs:100-105 [normalize_r] *)
Definition normalize_r {Q} (c : cpu Q) : cpu Q := set_r (get_r c) c.
(* z80.rs:79-85 [new]: default then reset; every field of the derived default is zero/false
   (z80.rs:49-69) *)
Definition cpu_default {Q} (d : Q) : cpu Q :=
  mkCpu 0 0 0 0 0 0 0 0 0 0 0 0 0 false 0 Mode0 false false false None 0 d.
Definition cpu_new {Q} (FL : Flavour Q) (d : Q) : cpu Q := reset FL (cpu_default d).
