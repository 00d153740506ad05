(** Model of src/cpu/flags.rs: [CpuFlags] is the flag byte itself. *)
From Coq Require Import ZArith Bool List.
From Verif Require Import Base.
Open Scope Z_scope.

(* flags.rs:10-31 *)
Definition FC : Z := 0x01.
Definition FN : Z := 0x02.
Definition FPV : Z := 0x04.
Definition FX : Z := 0x08.
Definition FH : Z := 0x10.
Definition FY : Z := 0x20.
Definition FZ : Z := 0x40.
Definition FS : Z := 0x80.
(* flags.rs:34-41 *)
Definition FXY : Z := Z.lor FX FY.
Definition HMASK : Z := FH - 1.

(** bitflags' [contains], [remove], [insert] (the bitflags crate itself is not modelled further). *)
Definition contains (f m : Z) : bool := Z.land f m =? m.
Definition fremove (f m : Z) : Z := Z.ldiff f m.
Definition finsert (f m : Z) : Z := Z.lor f m.

(* flags.rs:49-83 *)
Definition sf (f : Z) : bool := contains f FS.
Definition zf (f : Z) : bool := contains f FZ.
Definition hf (f : Z) : bool := contains f FH.
Definition pvf (f : Z) : bool := contains f FPV.
Definition nf (f : Z) : bool := contains f FN.
Definition cf (f : Z) : bool := contains f FC.

(** Helper for the [if cond { FLAG } else { empty }] pattern. *)
Definition fif (b : bool) (m : Z) : Z := if b then m else 0.

(* flags.rs:88-101 *)
Definition mask_cvz (c v z : bool) : Z :=
  Z.lor (Z.lor (fif c FC) (fif v FPV)) (fif z FZ).
(* flags.rs:105-108 *)
Definition mask_sign (res : Z) : Z := Z.land res FS.
(* flags.rs:112-120 *)
Definition mask_zero (res : Z) : Z := fif (res =? 0) FZ.
(* flags.rs:124-132 *)
Definition mask_carry (c : bool) : Z := fif c FC.
(* flags.rs:136-144 *)
Definition mask_nf (n : bool) : Z := fif n FN.
(* flags.rs:148-156 *)
Definition mask_hf (h : bool) : Z := fif h FH.
(* flags.rs:160-168 *)
Definition mask_hcf (hc : bool) : Z := fif hc (Z.lor FH FC).
(* flags.rs:172-180 *)
Definition mask_pvf (pv : bool) : Z := fif pv FPV.
(* flags.rs:184-187 *)
Definition parity (res : Z) : Z := mask_pvf (Z.land (count_ones res) 1 =? 0).
(* flags.rs:191-194 *)
Definition mask_xy (res : Z) : Z := Z.land res FXY.
(* flags.rs:198-201 *)
Definition mask_sxy (res : Z) : Z := Z.land res (Z.lor FS FXY).
(* flags.rs:203-219 *)
Definition mask_bitops (res : Z) (h c : bool) : Z :=
  Z.lor (Z.lor (Z.lor (Z.lor (mask_sxy res)
     (fif (res =? 0) FZ)) (fif h FH)) (fif c FC))
     (fif (Z.land (count_ones res) 1 =? 0) FPV).
(* flags.rs:221-229 *)
Definition mask_nh_add (tgt add : Z) : Z :=
  fif (negb (Z.land (u8 (Z.land tgt HMASK + Z.land add HMASK)) FH =? 0)) FH.

Definition HMASK16 : Z := Z.shiftl FH 8 - 1.
Definition H16 : Z := Z.shiftl FH 8.

(* flags.rs:231-240 *)
Definition mask_nh_add16 (tgt add : Z) : Z :=
  fif (negb (Z.land (u16 (Z.land tgt HMASK16 + Z.land add HMASK16)) H16 =? 0)) FH.
(* flags.rs:242-252 *)
Definition mask_nh_adc (tgt add : Z) (c : bool) : Z :=
  let tgt := u8 (Z.land tgt HMASK + Z.land add HMASK) in
  fif (negb (Z.land tgt FH =? 0) || negb (Z.land (u8 (Z.land tgt HMASK + b2z c)) FH =? 0)) FH.
(* flags.rs:254-265 *)
Definition mask_nh_adc16 (tgt add : Z) (c : bool) : Z :=
  let tgt := u16 (Z.land tgt HMASK16 + Z.land add HMASK16) in
  fif (negb (Z.land tgt H16 =? 0) || negb (Z.land (u16 (Z.land tgt HMASK16 + b2z c)) H16 =? 0)) FH.
(* flags.rs:267-275 *)
Definition mask_nh_sub (tgt sub : Z) : Z :=
  if negb (Z.land (u8 (Z.land tgt HMASK - Z.land sub HMASK)) FH =? 0) then Z.lor FH FN else FN.
(* flags.rs:277-287 *)
Definition mask_nh_sbc (tgt sub : Z) (c : bool) : Z :=
  let tgt := u8 (Z.land tgt HMASK - Z.land sub HMASK) in
  if negb (Z.land tgt FH =? 0) || negb (Z.land (u8 (Z.land tgt HMASK - b2z c)) FH =? 0)
  then Z.lor FH FN else FN.
(* flags.rs:289-300 *)
Definition mask_nh_sbc16 (tgt sub : Z) (c : bool) : Z :=
  let tgt := u16 (Z.land tgt HMASK16 - Z.land sub HMASK16) in
  if negb (Z.land tgt H16 =? 0) || negb (Z.land (u16 (Z.land tgt HMASK16 - b2z c)) H16 =? 0)
  then Z.lor FH FN else FN.
(* flags.rs:302-305 *)
Definition mask_block_op_xy (n : Z) : Z :=
  Z.lor (Z.land n FX) (Z.land (u8 (Z.shiftl n 4)) FY).
