(** C33: serialization round trips, whatever the format does with sequences, maps, the order of fields and numbers. *)
From Coq Require Import ZArith Bool String List Permutation.
From Verif Require Import Base Range Parse Cpu Flavours Any Format Serde SpecSerde SerdeProofs.
Import ListNotations.
Open Scope Z_scope.

(** Reading back as the same flavour gives an equal CPU, as another flavour the converted one, as [Z80Any] the variant written. *)
Theorem C33_nmos : forall c v, wf c -> carries false (ser_nmos c) v ->
  de_nmos v = DOk c /\ de_cmos v = DOk (into_flavour nmos_to_cmos c) /\ de_bm1 v = DOk (into_flavour nmos_to_bm1 c) /\ de_any v = Some (AnyNMOS c).
Proof. exact trip_nmos. Qed.
Theorem C33_cmos : forall c v, wf c -> carries false (ser_cmos c) v ->
  de_cmos v = DOk c /\ de_nmos v = DOk (into_flavour cmos_to_nmos c) /\ de_bm1 v = DOk (into_flavour cmos_to_bm1 c) /\ de_any v = Some (AnyCMOS c).
Proof. exact trip_cmos. Qed.
Theorem C33_bm1 : forall c v, wf c -> carries false (ser_bm1 c) v ->
  de_bm1 v = DOk c /\ de_nmos v = DOk (into_flavour bm1_to_nmos c) /\ de_cmos v = DOk (into_flavour bm1_to_cmos c) /\ de_any v = Some (AnyBM1 c).
Proof. exact trip_bm1. Qed.
Theorem C33_any : forall a v, match a with AnyNMOS c => wf c | AnyCMOS c => wf c | AnyBM1 c => wf c end -> carries false (ser_any a) v ->
  de_any v = Some a /\ de_nmos v = DOk (any_into_nmos_cpu a) /\ de_cmos v = DOk (any_into_cmos_cpu a) /\ de_bm1 v = DOk (any_into_bm1_cpu a).
Proof. exact trip_any. Qed.
(** A JSON-like map in the reverse order, with the registers as a sequence, an old name, and the prefix bare. *)
Definition ex_cpu : cpu qstate :=
  mkCpu 0x1234 0xFFFF 1 2 0x8000 4 5 6 7 8 9 10 11 true 0x3F80 Mode2 true false true (Some Yfd) 0x81 (mkQ true false).
Definition ex_map : val := VMap
  [("flavour", VMap [("last_flags_modified", VBool false); ("flagsModified", VBool true)]); ("r", VU 0x81); ("prefix", VStr "Yfd"); ("halt", VBool true);
   ("iff2", VBool false); ("iff1", VBool true); ("im", VStr "Mode2"); ("ir", VU 0x3F80); ("last_ei", VBool true); ("memptr", VU 11);
   ("sp", VU 10); ("pc", VU 9); ("index", VMap [("iy", VU 8); ("ix", VU 7)]); ("regsAlt", VSeq None [VI 4; VU 5; VU16 6]);
   ("regs", VSeq (Some 3%nat) [VU 1; VU 2; VU 0x8000]); ("afAlt", VU 0xFFFF); ("af", VU 0x1234); ("type", VStr "BM1")]%string.
Example C33_ex_map : de_any ex_map = Some (AnyBM1 ex_cpu) /\ de_nmos ex_map = DOk (into_flavour bm1_to_nmos ex_cpu).
Proof. split; reflexivity. Qed.
Example C33_ex_seq : de_bm1 (VSeq (Some 18%nat) [VStr "BM1"; VU16 0x1234; VU16 0xFFFF; VSeq (Some 3%nat) [VU16 1; VU16 2; VU16 0x8000];
   VSeq (Some 3%nat) [VU16 4; VU16 5; VU16 6]; VSeq (Some 2%nat) [VU16 7; VU16 8]; VU16 9; VU16 10; VU16 11; VBool true; VU16 0x3F80; VU 2; VBool true;
   VBool false; VBool true; VSome (VU 1); VU 0x81; VSeq (Some 2%nat) [VBool true; VBool false]]) = DOk ex_cpu.
Proof. reflexivity. Qed.

(** Maps without some of the fields type, memptr, r, flavour (older versions of the crate). *)
Theorem C33_defaults : forall keep l, (forall s, keep s = false -> In s may_drop) ->
  (forall c, wf c -> map_of false keep (ser_nmos c) l ->
     de_nmos (VMap l) = DOk (defaulted keep q_default c) /\ de_any (VMap l) = Some (AnyNMOS (defaulted keep q_default c))) /\
  (forall c, wf c -> map_of false keep (ser_cmos c) l ->
     de_cmos (VMap l) = DOk (defaulted keep tt c) /\
     de_any (VMap l) = Some (if keep "type"%string then AnyCMOS (defaulted keep tt c) else AnyNMOS (into_flavour cmos_to_nmos (defaulted keep tt c)))) /\
  (forall c, wf c -> map_of false keep (ser_bm1 c) l ->
     de_bm1 (VMap l) = DOk (defaulted keep q_default c) /\
     de_any (VMap l) = Some (if keep "type"%string then AnyBM1 (defaulted keep q_default c) else AnyNMOS (into_flavour bm1_to_nmos (defaulted keep q_default c)))).
Proof.
  exact (fun keep l D => conj (fun c W => drop_nmos keep c l W D) (conj (fun c W => drop_cmos keep c l W D) (fun c W => drop_bm1 keep c l W D))).
Qed.
Example C33_ex_defaults : de_any (VMap
  [("prefix", VNone); ("halt", VBool true); ("iff2", VBool false); ("iff1", VBool true); ("im", VStr "Mode1"); ("ir", VStr "0x3F80"); ("lastEi", VBool true);
   ("sp", VU 10); ("pc", VU 9); ("index", VSeq None [VU 7; VU 8]); ("regsAlt", VSeq None [VI 4; VU 5; VU16 6]);
   ("regs", VSeq None [VU 1; VU 2; VI (-2)]); ("afAlt", VSeq None [VU 0x34; VU 0x12]); ("af", VStr "$ff")]%string) =
  Some (AnyNMOS (mkCpu 0xFF 0x1234 1 2 0xFFFE 4 5 6 7 8 9 10 0 true 0x3F80 Mode1 true false true None 0x80 q_default)).
Proof. reflexivity. Qed.

(** Sequences without the tag are read only if the format tells how many elements there are. *)
Theorem C33_tagless : forall c vs, wf c -> Forall2 (fun f v => carries false (snd f) v) (tl (ser_fields "NMOS" ser_q c)) vs ->
  de_nmos (VSeq (Some 17%nat) vs) = DOk c /\ de_any (VSeq (Some 17%nat) vs) = Some (AnyNMOS c) /\
  de_nmos (VSeq None vs) = DErr /\ de_any (VSeq None vs) = None.
Proof. exact tagless_nmos. Qed.

(** Any input either is rejected or gives a CPU with all registers in range; there is no panic. *)
Theorem C33_safe : forall v, (de_nmos v <> DPanic /\ de_cmos v <> DPanic /\ de_bm1 v <> DPanic) /\
  (val_ok v -> (forall c, de_nmos v = DOk c -> wf c) /\ (forall c, de_cmos v = DOk c -> wf c) /\ (forall c, de_bm1 v = DOk c -> wf c) /\
  (forall a, de_any v = Some a -> match a with AnyNMOS c => wf c | AnyCMOS c => wf c | AnyBM1 c => wf c end)).
Proof. exact (fun v => conj (no_panic v) (in_range v)). Qed.
Example C33_ex_safe : de_pair (VU 65536) = None /\ de_pair (VI (-1)) = Some 0xFFFF /\ de_u8 (VU 256) = None.
Proof. repeat split. Qed.

(** Rejected: keys that are no field, a field given twice (under whichever names), a field missing that must be there, an unknown tag. *)
Theorem C33_rejects_unknown : forall l k v, In (k, v) l -> (forall ns, In ns key_names -> ~ In k ns) ->
  de_nmos (VMap l) = DErr /\ de_cmos (VMap l) = DErr /\ de_bm1 (VMap l) = DErr /\ de_any (VMap l) = None.
Proof. exact reject_unknown. Qed.
Theorem C33_rejects_twice : forall l1 l2 ns k k' v v', In ns key_names -> In k ns -> In k' ns -> In (k, v) l1 -> In (k', v') l2 ->
  de_nmos (VMap (l1 ++ l2)) = DErr /\ de_cmos (VMap (l1 ++ l2)) = DErr /\ de_bm1 (VMap (l1 ++ l2)) = DErr /\ de_any (VMap (l1 ++ l2)) = None.
Proof. exact reject_twice. Qed.
Theorem C33_rejects_missing : forall l ns, In ns key_names -> (forall s, In s may_drop -> ~ In s ns) -> (forall k v, In (k, v) l -> ~ In k ns) ->
  de_nmos (VMap l) = DErr /\ de_cmos (VMap l) = DErr /\ de_bm1 (VMap l) = DErr /\ de_any (VMap l) = None.
Proof. exact reject_missing. Qed.
Theorem C33_rejects_tag : forall s, ~ In s ["NMOS"; "CMOS"; "BM1"]%string ->
  (forall l, In ("type"%string, VStr s) l -> de_any (VMap l) = None) /\
  (forall h l, h <> Some 17%nat -> de_nmos (VSeq h (VStr s :: l)) = DErr /\ de_cmos (VSeq h (VStr s :: l)) = DErr /\
                                   de_bm1 (VSeq h (VStr s :: l)) = DErr /\ de_any (VSeq h (VStr s :: l)) = None).
Proof. exact (fun s H => conj (fun l Hi => unknown_tag l s Hi H) (fun h l Hh => unknown_tag_seq h l s Hh H)). Qed.
Example C33_ex_rejects :
  (let add e := match ex_map with VMap l => VMap (e :: l) | v => v end in
   let without k := match ex_map with VMap l => VMap (filter (fun e => negb (fst e =? k)) l) | v => v end in
   de_any (add ("x", VNone)) = None /\ de_any (add ("af_alt", VU 0)) = None /\ de_any (without "im") = None /\ de_any (without "r") <> None)%string.
Proof. repeat split; discriminate. Qed.

(** Register pairs as text: hexadecimal digits in either case, with any number of leading zeros, after nothing, a dollar or 0x. *)
Theorem C33_pair_text : forall up w n pre, word n -> In pre [""; "$"; "0x"]%string -> de_pair (VStr (pre ++ hex up w n)) = Some n.
Proof. exact pair_hex. Qed.
Example C33_ex_text : de_pair (VStr "0xBeeF") = Some 0xBEEF /\ de_pair (VStr "$00000001") = Some 1 /\ de_pair (VStr "10000") = None /\
  de_pair (VStr "+7f") = Some 0x7F /\ de_pair (VStr "0X12") = None /\ de_pair (VStr "$") = None.
Proof. repeat split. Qed.

(** The other forms of a register pair: two bytes, the low one first, and nothing else in a sequence; numbers, of which the
    negative ones of 16 bits stand for the upper half. *)
Theorem C33_pair_seq : forall h l w, de_pair (VSeq h l) = Some w <->
  exists vl vh lo hi, l = [vl; vh] /\ byte_of vl lo /\ byte_of vh hi /\ w = 256 * hi + lo.
Proof. exact pair_seq. Qed.
Theorem C33_pair_number : forall v s n w, number_of v = Some (s, n) -> val_ok v ->
  (de_pair v = Some w <-> word w /\ if s then -32768 <= n < 32768 /\ (w = n \/ w = n + 65536) else w = n).
Proof. exact pair_number. Qed.
(** The crate's test registers_serde, registers.rs:300-337. *)
Example C33_ex_pair : de_regs (VMap [("bc", VSeq None [VU 8; VU 3]); ("de", VI (-1)); ("hl", VSeq None [VU 42; VU 0])]%string) = Some (776, 65535, 42) /\
  de_pair (VSeq None []) = None /\ de_pair (VMap []) = None /\ de_pair (VSeq None [VU 256; VU 0]) = None /\
  de_pair (VSeq None [VI (-1); VU 0]) = None /\ de_pair (VU 99999) = None.
Proof. repeat split. Qed.

(** The round trip fails for formats that deliver all integers as 64-bit signed ones: register values above 32767 are rejected. *)
Theorem C33_signed : forall n, word n -> (de_pair (VI n) = Some n <-> n < 0x8000) /\ (de_pair (VI n) = None <-> 0x8000 <= n).
Proof. exact pair_signed. Qed.
Theorem C33_refuted_signed : exists c v, wf c /\ carries true (ser_nmos c) v /\ de_nmos v = DErr /\ de_any v = None.
Proof. exact signed_refuted. Qed.

Definition C33_everything := (@C33_nmos, @C33_cmos, @C33_bm1, @C33_any, @C33_defaults, @C33_tagless, @C33_safe,
  @C33_rejects_unknown, @C33_rejects_twice, @C33_rejects_missing, @C33_rejects_tag, @C33_pair_text, @C33_pair_seq, @C33_pair_number, @C33_signed, @C33_refuted_signed).
Print Assumptions C33_everything.
