(** Property C45: the [Debug] text of a CPU tells its whole state. *)
From Coq Require Import ZArith Bool String Ascii List.
From Verif Require Import Base Parse Cpu Flavours Any Range Format DebugText SpecDebugText SerdeProofs DebugTextProofs.
Import ListNotations.
Open Scope string_scope.
Open Scope list_scope.
Open Scope Z_scope.

(** [{:?}], [{:x?}], [{:X?}], each with and without [#]: every field can be read back... *)
Theorem C45_read : forall Q x alt (c : cpu Q), wf c -> read_cpu x (debug_text x alt c) = Some (forget c).
Proof. exact @debug_read. Qed.
(** ... so that texts agree exactly if the CPUs do, whatever their flavours. *)
Theorem C45_same : forall Q Q' x alt (c : cpu Q) (c' : cpu Q'), wf c -> wf c' ->
  (debug_text x alt c = debug_text x alt c' <-> forget c = forget c').
Proof. exact @debug_same. Qed.
(** [Z80Any] adds the name of the flavour. *)
Theorem C45_any : forall x alt a, any_wf a -> read_any x (any_debug_text x alt a) = Some (any_kind a, any_forget a).
Proof. exact any_read. Qed.
(** The [#] text has a line for the name, for each of the 21 fields (three for a pending prefix) and the closing one; the other, one. *)
Theorem C45_lines : forall Q x alt (c : cpu Q), wf c ->
  newlines (debug_text x alt c) = if alt then match prefix c with None => 22%nat | Some _ => 24%nat end else 0%nat.
Proof. exact @debug_lines. Qed.
(** and each of its lines is indented by four blanks for each bracket it is in. *)
Theorem C45_neat : forall Q x (c : cpu Q), wf c -> neat (debug_text x true c).
Proof. exact @debug_neat. Qed.
Theorem C45_any_neat : forall x a, any_wf a -> neat (any_debug_text x true a).
Proof. exact any_neat. Qed.

Definition a_cpu : cpu unit :=
  mkCpu 0xFF00 0x1234 0x00AF 0xABCD 65535 10 0 1 0xBC 0xDE 0x8000 0x7FFE 0x00DE true 0x3F80 Mode2 true false true (Some Yfd) 0x9C tt.
Example C45_ex_wf : wf a_cpu.
Proof. constructor; cbv; split; congruence. Qed.
Example C45_ex_plain : debug_text Dec false a_cpu =
  "Z80 { pc: 32768, sp: 32766, af: 65280, bc: 175, de: 43981, hl: 65535, af': 4660, bc': 10, de': 0, hl': 1, ix: 188, iy: 222, ir: 16256, r: 156, im: Mode2, iff1: true, iff2: false, halt: true, ei: true, mp: 222, prefix: Some(Yfd) }".
Proof. reflexivity. Qed.
(** Here values look like names of fields: [bc: af], [ix: bc], [iy: de]. *)
Example C45_ex_hex : debug_text LHex false a_cpu =
  "Z80 { pc: 8000, sp: 7ffe, af: ff00, bc: af, de: abcd, hl: ffff, af': 1234, bc': a, de': 0, hl': 1, ix: bc, iy: de, ir: 3f80, r: 9c, im: Mode2, iff1: true, iff2: false, halt: true, ei: true, mp: de, prefix: Some(Yfd) }".
Proof. reflexivity. Qed.
Example C45_ex_alt : any_debug_text UHex true (AnyCMOS a_cpu) =
"CMOS(
    Z80 {
        pc: 0x8000,
        sp: 0x7FFE,
        af: 0xFF00,
        bc: 0xAF,
        de: 0xABCD,
        hl: 0xFFFF,
        af': 0x1234,
        bc': 0xA,
        de': 0x0,
        hl': 0x1,
        ix: 0xBC,
        iy: 0xDE,
        ir: 0x3F80,
        r: 0x9C,
        im: Mode2,
        iff1: true,
        iff2: false,
        halt: true,
        ei: true,
        mp: 0xDE,
        prefix: Some(
            Yfd,
        ),
    },
)".
Proof. reflexivity. Qed.
Example C45_ex_read : read_any UHex (any_debug_text UHex true (AnyCMOS a_cpu)) = Some ("CMOS", a_cpu).
Proof. reflexivity. Qed.
Example C45_ex_neat : layout 0 (Some 0%nat) ("A {" ++ nl ++ "   b: 1," ++ nl ++ "}")%string = None /\ neat ("A {" ++ nl ++ "    b: 1," ++ nl ++ "}")%string.
Proof. split; reflexivity. Qed.
Definition C45_all := (@C45_read, @C45_same, @C45_any, @C45_lines, @C45_neat, @C45_any_neat).
Print Assumptions C45_all.
