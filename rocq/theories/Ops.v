(** Model of src/z80/ops.rs:1-435 (the [tests] module below line 437 is not modelled).
    A Rust function [f(args, flags: &mut CpuFlags) -> T] becomes [f args flags = (T, flags')]. *)
From Coq Require Import ZArith Bool List.
From Verif Require Import Base Flags.
Open Scope Z_scope.

Local Infix "|.|" := Z.lor (at level 50, left associativity).

(* ops.rs:18-27; result (rhi, rlo) is returned as the 16-bit value *)
Definition add16 (val add f : Z) : Z * Z :=
  let rval := u16 (val + add) in
  let c := 65536 <=? val + add in
  (rval, finsert (fremove f (FXY |.| FH |.| FN |.| FC))
           (mask_nh_add16 val add |.| mask_xy (hi8 rval) |.| mask_carry c)).

(* ops.rs:29-43 *)
Definition adc16 (val add f : Z) : Z * Z :=
  let c0 := cf f in
  let resu := (val + add + b2z c0) mod 2^32 in
  let c := negb (Z.land resu 65536 =? 0) in
  let vali := wrap_i16 (i16 val + i16 add) in
  let v := negb (fits_i16 (i16 val + i16 add)) in
  let v := xorb v (negb (fits_i16 (vali + b2z c0))) in
  let rval := u16 resu in
  let z := rval =? 0 in
  (rval, mask_nh_adc16 val add c0 |.| mask_sxy (hi8 rval) |.| mask_cvz c v z).

(* ops.rs:45-59 *)
Definition sbc16 (val sub f : Z) : Z * Z :=
  let c0 := cf f in
  let resu := (val - sub - b2z c0) mod 2^32 in
  let c := negb (Z.land resu 65536 =? 0) in
  let vali := wrap_i16 (i16 val - i16 sub) in
  let v := negb (fits_i16 (i16 val - i16 sub)) in
  let v := xorb v (negb (fits_i16 (vali - b2z c0))) in
  let rval := u16 resu in
  let z := rval =? 0 in
  (rval, mask_nh_sbc16 val sub c0 |.| mask_sxy (hi8 rval) |.| mask_cvz c v z).

(* ops.rs:61-70 *)
Definition add (val add f : Z) : Z * Z :=
  let rval := u8 (val + add) in
  let c := 256 <=? val + add in
  let v := negb (fits_i8 (i8 val + i8 add)) in
  let z := rval =? 0 in
  (rval, mask_nh_add val add |.| mask_sxy rval |.| mask_cvz c v z).

(* ops.rs:72-81 *)
Definition sub (val sub f : Z) : Z * Z :=
  let rval := u8 (val - sub) in
  let c := val - sub <? 0 in
  let v := negb (fits_i8 (i8 val - i8 sub)) in
  let z := rval =? 0 in
  (rval, mask_nh_sub val sub |.| mask_sxy rval |.| mask_cvz c v z).

(* ops.rs:83-92 *)
Definition cp (val cmp f : Z) : Z :=
  let rval := u8 (val - cmp) in
  let c := val - cmp <? 0 in
  let v := negb (fits_i8 (i8 val - i8 cmp)) in
  let z := rval =? 0 in
  mask_nh_sub val cmp |.| mask_sign rval |.| mask_xy cmp |.| mask_cvz c v z.

(* ops.rs:94-107 *)
Definition adc (val add f : Z) : Z * Z :=
  let c0 := cf f in
  let resu := u16 (val + add + b2z c0) in
  let c := negb (Z.land resu 256 =? 0) in
  let vali := wrap_i8 (i8 val + i8 add) in
  let v := negb (fits_i8 (i8 val + i8 add)) in
  let v := xorb v (negb (fits_i8 (vali + b2z c0))) in
  let rval := u8 resu in
  let z := rval =? 0 in
  (rval, mask_nh_adc val add c0 |.| mask_sxy rval |.| mask_cvz c v z).

(* ops.rs:109-122 *)
Definition sbc (val sub f : Z) : Z * Z :=
  let c0 := cf f in
  let resu := u16 (val - sub - b2z c0) in
  let c := negb (Z.land resu 256 =? 0) in
  let vali := wrap_i8 (i8 val - i8 sub) in
  let v := negb (fits_i8 (i8 val - i8 sub)) in
  let v := xorb v (negb (fits_i8 (vali - b2z c0))) in
  let rval := u8 resu in
  let z := rval =? 0 in
  (rval, mask_nh_sbc val sub c0 |.| mask_sxy rval |.| mask_cvz c v z).

(* ops.rs:124-129 *)
Definition and8 (val arg f : Z) : Z * Z :=
  let rval := Z.land val arg in (rval, mask_bitops rval true false).
(* ops.rs:131-136 *)
Definition xor8 (val arg f : Z) : Z * Z :=
  let rval := Z.lxor val arg in (rval, mask_bitops rval false false).
(* ops.rs:138-143 *)
Definition or8 (val arg f : Z) : Z * Z :=
  let rval := Z.lor val arg in (rval, mask_bitops rval false false).

(* ops.rs:145-154 *)
Definition inc (val f : Z) : Z * Z :=
  let rval := u8 (val + 1) in
  let v := negb (fits_i8 (i8 val + 1)) in
  let z := rval =? 0 in
  (rval, mask_nh_add val 1 |.| mask_sxy rval |.| mask_cvz (cf f) v z).
(* ops.rs:156-165 *)
Definition dec (val f : Z) : Z * Z :=
  let rval := u8 (val - 1) in
  let v := negb (fits_i8 (i8 val - 1)) in
  let z := rval =? 0 in
  (rval, mask_nh_sub val 1 |.| mask_sxy rval |.| mask_cvz (cf f) v z).

(* ops.rs:167-170 *)
Definition neg (acc f : Z) : Z * Z := sub 0 acc f.
(* ops.rs:172-178 *)
Definition cpl (acc f : Z) : Z * Z :=
  let rval := not8 acc in
  (rval, finsert (fremove f FXY) (mask_xy rval |.| FH |.| FN)).
(* ops.rs:180-185 *)
Definition ccf (q f : Z) : Z :=
  let c := cf f in
  finsert (fremove f (FXY |.| FH |.| FN |.| FC))
    (mask_xy q |.| mask_hf c |.| mask_carry (negb c)).
(* ops.rs:187-191 *)
Definition scf (q f : Z) : Z :=
  finsert (fremove f (FXY |.| FH |.| FN)) (mask_xy q |.| FC).

(** Inclusive range pattern [a..=b]. *)
Definition rng (a b x : Z) : bool := (a <=? x) && (x <=? b).

(* ops.rs:200-212: the nine arms in order; [None] is [debug_unreachable_unchecked!] *)
Definition daa_diff (c0 : bool) (hn : Z) (h0 : bool) (ln : Z) : option Z :=
  if negb c0 && rng 0x00 0x90 hn && negb h0 && rng 0 9 ln then Some 0x00
  else if negb c0 && rng 0x00 0x90 hn && h0 && rng 0 9 ln then Some 0x06
  else if negb c0 && rng 0x00 0x80 hn && rng 0xA 0xF ln then Some 0x06
  else if negb c0 && rng 0xA0 0xF0 hn && negb h0 && rng 0 9 ln then Some 0x60
  else if c0 && negb h0 && rng 0 9 ln then Some 0x60
  else if c0 && h0 && rng 0 9 ln then Some 0x66
  else if c0 && rng 0xA 0xF ln then Some 0x66
  else if negb c0 && rng 0x90 0xF0 hn && rng 0xA 0xF ln then Some 0x66
  else if negb c0 && rng 0xA0 0xF0 hn && h0 && rng 0 9 ln then Some 0x66
  else None.
(* ops.rs:213-221 *)
Definition daa_cf (c0 : bool) (hn ln : Z) : option bool :=
  if negb c0 && rng 0x00 0x90 hn && rng 0 9 ln then Some false
  else if negb c0 && rng 0x00 0x80 hn && rng 0xA 0xF ln then Some false
  else if negb c0 && rng 0x90 0xF0 hn && rng 0xA 0xF ln then Some true
  else if negb c0 && rng 0xA0 0xF0 hn && rng 0 9 ln then Some true
  else if c0 then Some true
  else None.
(* ops.rs:222-230 *)
Definition daa_hf (n0 h0 : bool) (ln : Z) : option bool :=
  if negb n0 && rng 0 9 ln then Some false
  else if negb n0 && rng 0xA 0xF ln then Some true
  else if n0 && negb h0 then Some false
  else if n0 && h0 && rng 6 0xF ln then Some false
  else if n0 && h0 && rng 0 5 ln then Some true
  else None.
(* ops.rs:193-239; [None]: one of the unreachable arms was reached *)
Definition daa (acc f : Z) : option (Z * Z) :=
  let c0 := cf f in
  let h0 := hf f in
  let n0 := nf f in
  let hn := Z.land acc 0xF0 in
  let ln := Z.land acc 0x0F in
  match daa_diff c0 hn h0 ln, daa_cf c0 hn ln, daa_hf n0 h0 ln with
  | Some diff, Some c, Some h =>
      let res := if n0 then u8 (acc - diff) else u8 (acc + diff) in
      Some (res, mask_bitops res h c |.| mask_nf n0)
  | _, _, _ => None
  end.

Definition MASK_ROTA : Z := FXY |.| FH |.| FN |.| FC.

(* ops.rs:241-248 *)
Definition rlca (acc f : Z) : Z * Z :=
  let acc := rotl8 acc 1 in
  let cflag := Z.land acc 1 in
  (acc, finsert (fremove f MASK_ROTA) (mask_xy acc |.| cflag)).
(* ops.rs:250-257 *)
Definition rrca (acc f : Z) : Z * Z :=
  let cflag := Z.land acc 1 in
  let acc := rotr8 acc 1 in
  (acc, finsert (fremove f MASK_ROTA) (mask_xy acc |.| cflag)).
(* ops.rs:259-267 *)
Definition rla (acc f : Z) : Z * Z :=
  let acc := rotl8 acc 1 in
  let cflag := Z.land acc 1 in
  let acc := Z.lor (Z.land acc (not8 1)) (Z.land f FC) in
  (acc, finsert (fremove f MASK_ROTA) (mask_xy acc |.| cflag)).
(* ops.rs:269-276 *)
Definition rra (acc f : Z) : Z * Z :=
  let cflag := Z.land acc 1 in
  let acc := rotr8 (Z.lor (Z.land acc (not8 1)) (Z.land f FC)) 1 in
  (acc, finsert (fremove f MASK_ROTA) (mask_xy acc |.| cflag)).
(* ops.rs:278-284 *)
Definition rlc (val f : Z) : Z * Z :=
  let val := rotl8 val 1 in
  let c := negb (Z.land val 1 =? 0) in
  (val, mask_bitops val false c).
(* ops.rs:286-292 *)
Definition rrc (val f : Z) : Z * Z :=
  let c := negb (Z.land val 1 =? 0) in
  let val := rotr8 val 1 in
  (val, mask_bitops val false c).
(* ops.rs:294-301 *)
Definition rl (val f : Z) : Z * Z :=
  let val := rotl8 val 1 in
  let c := negb (Z.land val 1 =? 0) in
  let val := Z.lor (Z.land val (not8 1)) (Z.land f FC) in
  (val, mask_bitops val false c).
(* ops.rs:303-309 *)
Definition rr (val f : Z) : Z * Z :=
  let c := negb (Z.land val 1 =? 0) in
  let val := rotr8 (Z.lor (Z.land val (not8 1)) (Z.land f FC)) 1 in
  (val, mask_bitops val false c).
(* ops.rs:311-317 *)
Definition sla (val f : Z) : Z * Z :=
  let c := negb (Z.land val 0x80 =? 0) in
  let val := u8 (Z.shiftl val 1) in
  (val, mask_bitops val false c).
(* ops.rs:319-325 *)
Definition sll (val f : Z) : Z * Z :=
  let c := negb (Z.land val 0x80 =? 0) in
  let val := Z.lor (u8 (Z.shiftl val 1)) 1 in
  (val, mask_bitops val false c).
(* ops.rs:327-333 *)
Definition srl (val f : Z) : Z * Z :=
  let c := negb (Z.land val 1 =? 0) in
  let val := Z.shiftr val 1 in
  (val, mask_bitops val false c).
(* ops.rs:335-341 *)
Definition sra (val f : Z) : Z * Z :=
  let c := negb (Z.land val 1 =? 0) in
  let val := u8 (Z.shiftr (i8 val) 1) in
  (val, mask_bitops val false c).
(* ops.rs:343-349; result ((acc, oth), flags) *)
Definition rld (acc oth f : Z) : (Z * Z) * Z :=
  let oth := rotl8 oth 4 in
  let acc' := Z.lor (Z.land acc 0xF0) (Z.land oth 0x0F) in
  let oth' := Z.lor (Z.land oth 0xF0) (Z.land acc 0x0F) in
  ((acc', oth'), mask_bitops acc' false (cf f)).
(* ops.rs:351-357 *)
Definition rrd (acc oth f : Z) : (Z * Z) * Z :=
  let acc' := Z.lor (Z.land acc 0xF0) (Z.land oth 0x0F) in
  let oth' := Z.lor (Z.land oth 0xF0) (Z.land acc 0x0F) in
  let oth' := rotr8 oth' 4 in
  ((acc', oth'), mask_bitops acc' false (cf f)).
(* ops.rs:359-369 *)
Definition bit (n val f : Z) : Z :=
  let res := Z.land val (u8 (Z.shiftl 1 n)) in
  mask_sign res |.| mask_xy val |.| FH |.| Z.land f FC |.| fif (res =? 0) (FZ |.| FPV).
(* ops.rs:371-381 *)
Definition bit_mp (n val b35 f : Z) : Z :=
  let res := Z.land val (u8 (Z.shiftl 1 n)) in
  mask_sign res |.| mask_xy b35 |.| FH |.| Z.land f FC |.| fif (res =? 0) (FZ |.| FPV).
(* ops.rs:383-384 *)
Definition res (b v : Z) : Z := Z.land (not8 (u8 (Z.shiftl 1 b))) v.
(* ops.rs:386-387 *)
Definition set (b v : Z) : Z := Z.lor (u8 (Z.shiftl 1 b)) v.
(* ops.rs:389-392 *)
Definition ld_a_ir (ir : Z) (iff2 : bool) (f : Z) : Z :=
  mask_sxy ir |.| mask_zero ir |.| mask_pvf iff2 |.| Z.land f FC.
(* ops.rs:394-397 *)
Definition io (val f : Z) : Z := mask_bitops val false (cf f).
(* ops.rs:399-405 *)
Definition ldx (acc val : Z) (bc_is_zero : bool) (f : Z) : Z :=
  let n := u8 (val + acc) in
  finsert (fremove f (FH |.| FXY |.| FPV |.| FN))
    (mask_block_op_xy n |.| mask_pvf (negb bc_is_zero)).
(* ops.rs:407-420 *)
Definition cpx (acc cmp : Z) (bc_is_zero : bool) (f : Z) : bool * Z :=
  let res := u8 (acc - cmp) in
  let bits := mask_nh_sub acc cmp |.| mask_sign res |.| mask_zero res |.|
              mask_pvf (negb bc_is_zero) in
  let n := u8 (res - b2z (hf bits)) in
  (bc_is_zero || (res =? 0), bits |.| mask_block_op_xy n |.| Z.land f FC).
(* ops.rs:422-435; operator precedence of [k & 7 ^ b]: & binds tighter than ^ in Rust *)
Definition iox (io b m f : Z) : Z :=
  let k := u8 (io + m) in
  let hc := 256 <=? io + m in
  let n := negb (Z.land io 0x80 =? 0) in
  mask_sxy b |.| mask_zero b |.| mask_nf n |.| mask_hcf hc |.|
  parity (Z.lxor (Z.land k 7) b).
