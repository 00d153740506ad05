(** Independent specification of the Z80 arithmetic/logic unit, by integer arithmetic.

    Written from the processor documentation (Zilog user manual, S. Young's "The Undocumented Z80
    Documented"), not from the crate.  It uses none of the definitions of [Flags.v]/[Ops.v]; a byte is
    an integer in [0,256), bit [i] of [x] is [Z.testbit x i] and a flag byte is the sum of its
    flags' weights. *)
From Coq Require Import ZArith Bool List.
Import ListNotations.
Open Scope Z_scope.

Definition bitn (x i : Z) : bool := Z.testbit x i.
Definition bz (b : bool) : Z := if b then 1 else 0.
(** The byte whose bit [i] is [f i]. *)
Definition of_bits (f : Z -> bool) : Z :=
  fold_right (fun i acc => bz (f i) + 2 * acc) 0 [0;1;2;3;4;5;6;7].
(** The flag byte [S Z Y H X P/V N C], most significant first. *)
Definition flagbyte (s z y h x p n c : bool) : Z :=
  bz s * 128 + bz z * 64 + bz y * 32 + bz h * 16 + bz x * 8 + bz p * 4 + bz n * 2 + bz c.
Definition Sf f := bitn f 7.
Definition Zf f := bitn f 6.
Definition Yf f := bitn f 5.
Definition Hf f := bitn f 4.
Definition Xf f := bitn f 3.
Definition Pf f := bitn f 2.
Definition Nf f := bitn f 1.
Definition Cf f := bitn f 0.

Definition signed8 (x : Z) : Z := if x <? 128 then x else x - 256.
Definition signed16 (x : Z) : Z := if x <? 32768 then x else x - 65536.
Definition overflows8 (x : Z) : bool := (x <? -128) || (127 <? x).
Definition overflows16 (x : Z) : bool := (x <? -32768) || (32767 <? x).
Definition evenparity (x : Z) : bool :=
  negb (fold_right (fun i acc => xorb (bitn x i) acc) false [0;1;2;3;4;5;6;7]).

(** Sign and undocumented bits 5 and 3 are copied from [r], [xy]. *)
Definition flags_szxy (r xy : Z) (h p n c : bool) : Z :=
  flagbyte (bitn r 7) (r =? 0) (bitn xy 5) h (bitn xy 3) p n c.

(** ** 8-bit arithmetic: (result, flags) *)
Definition s_add (a v : Z) (cin : bool) : Z * Z :=
  let t := a + v + bz cin in
  let r := t mod 256 in
  (r, flags_szxy r r (16 <=? a mod 16 + v mod 16 + bz cin)
        (overflows8 (signed8 a + signed8 v + bz cin)) false (256 <=? t)).
Definition s_sub (a v : Z) (cin : bool) : Z * Z :=
  let t := a - v - bz cin in
  let r := t mod 256 in
  (r, flags_szxy r r (a mod 16 - v mod 16 - bz cin <? 0)
        (overflows8 (signed8 a - signed8 v - bz cin)) true (t <? 0)).
(** CP: as SUB, but bits 5 and 3 come from the operand. *)
Definition s_cp (a v : Z) : Z :=
  let t := a - v in
  flags_szxy (t mod 256) v (a mod 16 - v mod 16 <? 0)
    (overflows8 (signed8 a - signed8 v)) true (t <? 0).
Definition s_logic (r : Z) (h : bool) : Z * Z := (r, flags_szxy r r h (evenparity r) false false).
Definition s_and (a v : Z) : Z * Z := s_logic (of_bits (fun i => bitn a i && bitn v i)) true.
Definition s_or (a v : Z) : Z * Z := s_logic (of_bits (fun i => bitn a i || bitn v i)) false.
Definition s_xor (a v : Z) : Z * Z := s_logic (of_bits (fun i => xorb (bitn a i) (bitn v i))) false.
Definition s_inc (v f : Z) : Z * Z :=
  let r := (v + 1) mod 256 in
  (r, flags_szxy r r (v mod 16 =? 15) (v =? 127) false (Cf f)).
Definition s_dec (v f : Z) : Z * Z :=
  let r := (v - 1) mod 256 in
  (r, flags_szxy r r (v mod 16 =? 0) (v =? 128) true (Cf f)).
Definition s_neg (a : Z) : Z * Z := s_sub 0 a false.
Definition s_cpl (a f : Z) : Z * Z :=
  let r := 255 - a in
  (r, flagbyte (Sf f) (Zf f) (bitn r 5) true (bitn r 3) (Pf f) true (Cf f)).
(** [q]: the byte supplying bits 5 and 3. *)
Definition s_scf (q f : Z) : Z :=
  flagbyte (Sf f) (Zf f) (bitn q 5) false (bitn q 3) (Pf f) false true.
Definition s_ccf (q f : Z) : Z :=
  flagbyte (Sf f) (Zf f) (bitn q 5) (Cf f) (bitn q 3) (Pf f) false (negb (Cf f)).

(** DAA: the correction is 6 for the low digit if half carry or digit > 9, 0x60 for the high digit if
    carry or A > 0x99; added or subtracted according to N. *)
Definition s_daa (a f : Z) : Z * Z :=
  let lo := a mod 16 in
  let corr := (if Hf f || (9 <? lo) then 6 else 0) + (if Cf f || (153 <? a) then 96 else 0) in
  let r := (if Nf f then a - corr else a + corr) mod 256 in
  (r, flags_szxy r r (if Nf f then Hf f && (lo <? 6) else 9 <? lo) (evenparity r) (Nf f)
        (Cf f || (153 <? a))).

(** ** Rotates and shifts *)
Definition s_rlc_r v := of_bits (fun i => bitn v ((i - 1) mod 8)).
Definition s_rrc_r v := of_bits (fun i => bitn v ((i + 1) mod 8)).
Definition s_rl_r v (c : bool) := of_bits (fun i => if i =? 0 then c else bitn v (i - 1)).
Definition s_rr_r v (c : bool) := of_bits (fun i => if i =? 7 then c else bitn v (i + 1)).
Definition s_rotflags (r : Z) (c : bool) : Z := flags_szxy r r false (evenparity r) false c.
Definition s_rlc v := (s_rlc_r v, s_rotflags (s_rlc_r v) (bitn v 7)).
Definition s_rrc v := (s_rrc_r v, s_rotflags (s_rrc_r v) (bitn v 0)).
Definition s_rl v f := (s_rl_r v (Cf f), s_rotflags (s_rl_r v (Cf f)) (bitn v 7)).
Definition s_rr v f := (s_rr_r v (Cf f), s_rotflags (s_rr_r v (Cf f)) (bitn v 0)).
Definition s_sla v := (s_rl_r v false, s_rotflags (s_rl_r v false) (bitn v 7)).
Definition s_sll v := (s_rl_r v true, s_rotflags (s_rl_r v true) (bitn v 7)).
Definition s_srl v := (s_rr_r v false, s_rotflags (s_rr_r v false) (bitn v 0)).
Definition s_sra v := (s_rr_r v (bitn v 7), s_rotflags (s_rr_r v (bitn v 7)) (bitn v 0)).
(** Accumulator rotates keep S, Z and P/V. *)
Definition s_rotaflags (r f : Z) (c : bool) : Z :=
  flagbyte (Sf f) (Zf f) (bitn r 5) false (bitn r 3) (Pf f) false c.
Definition s_rlca a f := (s_rlc_r a, s_rotaflags (s_rlc_r a) f (bitn a 7)).
Definition s_rrca a f := (s_rrc_r a, s_rotaflags (s_rrc_r a) f (bitn a 0)).
Definition s_rla a f := (s_rl_r a (Cf f), s_rotaflags (s_rl_r a (Cf f)) f (bitn a 7)).
Definition s_rra a f := (s_rr_r a (Cf f), s_rotaflags (s_rr_r a (Cf f)) f (bitn a 0)).
(** RLD/RRD: ((accumulator, memory), flags). *)
Definition s_rld (a m f : Z) : (Z * Z) * Z :=
  let a' := 16 * (a / 16) + m / 16 in
  ((a', 16 * (m mod 16) + a mod 16), flags_szxy a' a' false (evenparity a') false (Cf f)).
Definition s_rrd (a m f : Z) : (Z * Z) * Z :=
  let a' := 16 * (a / 16) + m mod 16 in
  ((a', 16 * (a mod 16) + m / 16), flags_szxy a' a' false (evenparity a') false (Cf f)).

(** BIT n: Z and P/V tell that the bit is 0, S is set for a set bit 7, bits 5/3 come from [xy]. *)
Definition s_bit (n v xy f : Z) : Z :=
  flagbyte ((n =? 7) && bitn v 7) (negb (bitn v n)) (bitn xy 5) true (bitn xy 3)
           (negb (bitn v n)) false (Cf f).
Definition s_res (n v : Z) : Z := of_bits (fun i => bitn v i && negb (i =? n)).
Definition s_set (n v : Z) : Z := of_bits (fun i => bitn v i || (i =? n)).

(** LD A,I / LD A,R *)
Definition s_ld_a_ir (v : Z) (pv : bool) (f : Z) : Z := flags_szxy v v false pv false (Cf f).
(** IN r,(C) *)
Definition s_in (v f : Z) : Z := flags_szxy v v false (evenparity v) false (Cf f).

(** ** Block instructions *)
(** LDI and friends: [n = A + byte]; bit 5 is bit 1 of [n], bit 3 is bit 3 of [n]. *)
Definition s_ldx (a v : Z) (bc0 : bool) (f : Z) : Z :=
  let n := (a + v) mod 256 in
  flagbyte (Sf f) (Zf f) (bitn n 1) false (bitn n 3) (negb bc0) false (Cf f).
(** CPI and friends: [n = A - byte - H]. *)
Definition s_cpx (a v : Z) (bc0 : bool) (f : Z) : Z :=
  let r := (a - v) mod 256 in
  let h := a mod 16 <? v mod 16 in
  let n := (r - bz h) mod 256 in
  flagbyte (bitn r 7) (r =? 0) (bitn n 1) h (bitn n 3) (negb bc0) true (Cf f).
(** INI/OUTI and friends: [v] the byte moved, [b] the new B, [m] C+-1 (in) or the new L (out). *)
Definition s_iox (v b m : Z) : Z :=
  flagbyte (bitn b 7) (b =? 0) (bitn b 5) (256 <=? v + m) (bitn b 3)
           (xorb (evenparity ((v + m) mod 8)) (negb (evenparity b))) (bitn v 7) (256 <=? v + m).

(** ** 16-bit arithmetic *)
Definition s_add16 (x y f : Z) : Z * Z :=
  let t := x + y in
  let r := t mod 65536 in
  (r, flagbyte (Sf f) (Zf f) (bitn r 13) (4096 <=? x mod 4096 + y mod 4096) (bitn r 11)
               (Pf f) false (65536 <=? t)).
Definition s_adc16 (x y : Z) (cin : bool) : Z * Z :=
  let t := x + y + bz cin in
  let r := t mod 65536 in
  (r, flagbyte (bitn r 15) (r =? 0) (bitn r 13) (4096 <=? x mod 4096 + y mod 4096 + bz cin)
               (bitn r 11) (overflows16 (signed16 x + signed16 y + bz cin)) false (65536 <=? t)).
Definition s_sbc16 (x y : Z) (cin : bool) : Z * Z :=
  let t := x - y - bz cin in
  let r := t mod 65536 in
  (r, flagbyte (bitn r 15) (r =? 0) (bitn r 13) (x mod 4096 - y mod 4096 - bz cin <? 0)
               (bitn r 11) (overflows16 (signed16 x - signed16 y - bz cin)) true (t <? 0)).

(** ** Packed BCD *)
Definition is_bcd (x : Z) : bool := (0 <=? x) && (x / 16 <=? 9) && (x mod 16 <=? 9).
Definition bcd_val (x : Z) : Z := 10 * (x / 16) + x mod 16.
Definition bcd_of (n : Z) : Z := 16 * (n / 10) + n mod 10.
