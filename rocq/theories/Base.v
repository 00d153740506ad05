(** Machine integers.  Rust's [u8]/[u16] values are modelled as [Z] restricted to
    [0,2^8) / [0,2^16); every wrapping operation is an explicit [mod]. *)
From Coq Require Import ZArith Bool List.
Import ListNotations.
Open Scope Z_scope.

(** [x as u8], and the wrap of every [u8] wrapping operation. *)
Definition u8 (x : Z) : Z := x mod 256.
(** [x as u16], and the wrap of every [u16] wrapping operation. *)
Definition u16 (x : Z) : Z := x mod 65536.

(** [x as i8] for [x : u8]: two's complement reinterpretation. *)
Definition i8 (x : Z) : Z := if x <? 128 then x else x - 256.
(** [x as i16] for [x : u16]. *)
Definition i16 (x : Z) : Z := if x <? 32768 then x else x - 65536.
(** Does a mathematical integer fit [i8]/[i16]?  [checked_add(..).is_none()] is the negation. *)
Definition fits_i8 (x : Z) : bool := (-128 <=? x) && (x <=? 127).
Definition fits_i16 (x : Z) : bool := (-32768 <=? x) && (x <=? 32767).
(** Wrapping result of an [i8]/[i16] operation ([overflowing_add].0). *)
Definition wrap_i8 (x : Z) : Z := i8 (u8 x).
Definition wrap_i16 (x : Z) : Z := i16 (u16 x).

Definition b2z (b : bool) : Z := if b then 1 else 0.

(** [u8::count_ones] *)
Definition count_ones (x : Z) : Z :=
  fold_right (fun i acc => b2z (Z.testbit x i) + acc) 0 [0;1;2;3;4;5;6;7].

(** [u8::rotate_left(n)] / [rotate_right(n)] for 0 <= n <= 8. *)
Definition rotl8 (x n : Z) : Z := Z.lor (u8 (Z.shiftl x n)) (Z.shiftr x (8 - n)).
Definition rotr8 (x n : Z) : Z := Z.lor (Z.shiftr x n) (u8 (Z.shiftl x (8 - n))).

(** Two's complement bit negation [!x] of a [u8]. *)
Definition not8 (x : Z) : Z := 255 - x.

(** [RegisterPair] (src/cpu/registers.rs:27-30).  Simplified: the pair of bytes [lo; hi] is
    represented by its little-endian 16-bit value, i.e. [256*hi+lo]; this is a bijection. *)
Definition hi8 (w : Z) : Z := w / 256.                     (* registers.rs:97-101 get8hi *)
Definition lo8 (w : Z) : Z := w mod 256.                   (* registers.rs:103-107 get8lo *)
Definition mk16 (h l : Z) : Z := 256 * h + l.              (* registers.rs:128-131 set, 199-204 From<(u8,u8)> *)
Definition set8hi (w v : Z) : Z := mk16 v (lo8 w).         (* registers.rs:109-113 *)
Definition set8lo (w v : Z) : Z := mk16 (hi8 w) v.         (* registers.rs:115-119 *)

(** Range predicates used in theorem statements. *)
Definition byte (x : Z) : Prop := 0 <= x < 256.
Definition word (x : Z) : Prop := 0 <= x < 65536.
