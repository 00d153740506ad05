(** Generated by tools/gen_unit.py from the unit tests of the crate, one definition per test; do not edit. *)
From Coq Require Import ZArith Bool List.
From Verif Require Import Base Flags Ops UnitScript.
Import ListNotations.
Open Scope Z_scope.

(* ops.rs:442-510 *)
Definition ops_add16_works : list stmt :=
  Set_ 0 ::
  Call (bytes_of (add16 0 0)) [0; 0] ::
  Check (fun fl => Z.eqb 0 fl) ::
  Change (fun fl => finsert fl FN) ::
  Check (fun fl => Z.eqb FN fl) ::
  Call (bytes_of (add16 0 1)) [0; 1] ::
  Check (fun fl => Z.eqb 0 fl) ::
  Call (bytes_of (add16 4095 1)) [16; 0] ::
  Check (fun fl => Z.eqb FH fl) ::
  Call (bytes_of (add16 65535 65535)) [255; 254] ::
  Check (fun fl => Z.eqb (Z.lor (Z.lor FH FC) FXY) fl) ::
  Call (bytes_of (add16 257 65279)) [0; 0] ::
  Check (fun fl => Z.eqb (Z.lor FH FC) fl) ::
  Call (bytes_of (add16 4103 61440)) [0; 7] ::
  Check (fun fl => Z.eqb FC fl) ::
  Set_ 0 ::
  Check (fun fl => Z.eqb 0 fl) ::
  Call (bytes_of (adc16 0 0)) [0; 0] ::
  Check (fun fl => Z.eqb FZ fl) ::
  Change (fun fl => finsert fl FC) ::
  Call (bytes_of (adc16 0 0)) [0; 1] ::
  Check (fun fl => Z.eqb 0 fl) ::
  Call (bytes_of (adc16 256 65535)) [0; 255] ::
  Check (fun fl => Z.eqb (Z.lor FH FC) fl) ::
  Change (fun fl => fremove fl FC) ::
  Call (bytes_of (adc16 65535 256)) [0; 255] ::
  Check (fun fl => Z.eqb (Z.lor FH FC) fl) ::
  Call (bytes_of (adc16 256 65535)) [1; 0] ::
  Check (fun fl => Z.eqb (Z.lor FH FC) fl) ::
  Change (fun fl => fremove fl FC) ::
  Call (bytes_of (adc16 32768 32768)) [0; 0] ::
  Check (fun fl => Z.eqb (Z.lor (Z.lor FZ FPV) FC) fl) ::
  Call (bytes_of (adc16 32768 32768)) [0; 1] ::
  Check (fun fl => Z.eqb (Z.lor FPV FC) fl) ::
  Call (bytes_of (adc16 32767 32768)) [0; 0] ::
  Check (fun fl => Z.eqb (Z.lor (Z.lor FZ FH) FC) fl) ::
  Change (fun fl => fremove fl FC) ::
  Call (bytes_of (adc16 32767 32768)) [255; 255] ::
  Check (fun fl => Z.eqb (Z.lor FS FXY) fl) ::
  Call (bytes_of (adc16 32768 32767)) [255; 255] ::
  Check (fun fl => Z.eqb (Z.lor FS FXY) fl) ::
  Change (fun fl => finsert fl FC) ::
  Call (bytes_of (adc16 32768 32767)) [0; 0] ::
  Check (fun fl => Z.eqb (Z.lor (Z.lor FZ FH) FC) fl) ::
  Call (bytes_of (adc16 0 32767)) [128; 0] ::
  Check (fun fl => Z.eqb (Z.lor (Z.lor FS FH) FPV) fl) ::
  Call (bytes_of (adc16 0 32767)) [127; 255] ::
  Check (fun fl => Z.eqb FXY fl) ::
  Call (bytes_of (adc16 32767 0)) [127; 255] ::
  Check (fun fl => Z.eqb FXY fl) ::
  Call (bytes_of (adc16 32767 1)) [128; 0] ::
  Check (fun fl => Z.eqb (Z.lor (Z.lor FS FH) FPV) fl) ::
  Change (fun fl => finsert fl FC) ::
  Call (bytes_of (adc16 32767 0)) [128; 0] ::
  Check (fun fl => Z.eqb (Z.lor (Z.lor FS FH) FPV) fl) ::
  Change (fun fl => finsert fl FC) ::
  Call (bytes_of (adc16 32767 1)) [128; 1] ::
  Check (fun fl => Z.eqb (Z.lor (Z.lor FS FH) FPV) fl) ::
  Call (bytes_of (adc16 32768 65535)) [127; 255] ::
  Check (fun fl => Z.eqb (Z.lor (Z.lor FXY FPV) FC) fl) ::
  Call (bytes_of (adc16 32768 65535)) [128; 0] ::
  Check (fun fl => Z.eqb (Z.lor (Z.lor FS FH) FC) fl) ::
  Call (bytes_of (adc16 65535 32768)) [128; 0] ::
  Check (fun fl => Z.eqb (Z.lor (Z.lor FS FH) FC) fl) ::
  Change (fun fl => fremove fl FC) ::
  Call (bytes_of (adc16 65535 32768)) [127; 255] ::
  Check (fun fl => Z.eqb (Z.lor (Z.lor FXY FPV) FC) fl) ::
  [].

(* ops.rs:513-551 *)
Definition ops_sbc16_works : list stmt :=
  Set_ 0 ::
  Call (bytes_of (sbc16 0 0)) [0; 0] ::
  Check (fun fl => Z.eqb (Z.lor FZ FN) fl) ::
  Change (fun fl => finsert fl FC) ::
  Call (bytes_of (sbc16 0 0)) [255; 255] ::
  Check (fun fl => Z.eqb (Z.lor (Z.lor (Z.lor (Z.lor FS FXY) FH) FN) FC) fl) ::
  Call (bytes_of (sbc16 65535 32767)) [127; 255] ::
  Check (fun fl => Z.eqb (Z.lor (Z.lor (Z.lor FXY FH) FPV) FN) fl) ::
  Call (bytes_of (sbc16 65535 32767)) [128; 0] ::
  Check (fun fl => Z.eqb (Z.lor FS FN) fl) ::
  Call (bytes_of (sbc16 32767 65535)) [128; 0] ::
  Check (fun fl => Z.eqb (Z.lor (Z.lor (Z.lor FS FPV) FN) FC) fl) ::
  Call (bytes_of (sbc16 32767 65535)) [127; 255] ::
  Check (fun fl => Z.eqb (Z.lor (Z.lor (Z.lor FXY FH) FN) FC) fl) ::
  Call (bytes_of (sbc16 32768 32768)) [255; 255] ::
  Check (fun fl => Z.eqb (Z.lor (Z.lor (Z.lor (Z.lor FS FXY) FH) FN) FC) fl) ::
  Change (fun fl => fremove fl FC) ::
  Call (bytes_of (sbc16 32768 32768)) [0; 0] ::
  Check (fun fl => Z.eqb (Z.lor FZ FN) fl) ::
  Call (bytes_of (sbc16 32768 65535)) [128; 1] ::
  Check (fun fl => Z.eqb (Z.lor (Z.lor (Z.lor FS FH) FN) FC) fl) ::
  Call (bytes_of (sbc16 32768 65535)) [128; 0] ::
  Check (fun fl => Z.eqb (Z.lor (Z.lor (Z.lor FS FH) FN) FC) fl) ::
  Call (bytes_of (sbc16 32768 0)) [127; 255] ::
  Check (fun fl => Z.eqb (Z.lor (Z.lor (Z.lor FXY FH) FPV) FN) fl) ::
  Call (bytes_of (sbc16 32768 0)) [128; 0] ::
  Check (fun fl => Z.eqb (Z.lor FS FN) fl) ::
  Call (bytes_of (sbc16 32768 1)) [127; 255] ::
  Check (fun fl => Z.eqb (Z.lor (Z.lor (Z.lor FXY FH) FPV) FN) fl) ::
  Change (fun fl => finsert fl FC) ::
  Call (bytes_of (sbc16 32768 1)) [127; 254] ::
  Check (fun fl => Z.eqb (Z.lor (Z.lor (Z.lor FXY FH) FPV) FN) fl) ::
  Call (bytes_of (sbc16 1 1)) [0; 0] ::
  Check (fun fl => Z.eqb (Z.lor FZ FN) fl) ::
  Change (fun fl => finsert fl FC) ::
  Call (bytes_of (sbc16 1 1)) [255; 255] ::
  Check (fun fl => Z.eqb (Z.lor (Z.lor (Z.lor (Z.lor FS FXY) FH) FN) FC) fl) ::
  [].

(* ops.rs:554-622 *)
Definition ops_add_works : list stmt :=
  Set_ 0 ::
  Call (byte_of (add 0 0)) [0] ::
  Check (fun fl => Z.eqb FZ fl) ::
  Change (fun fl => finsert fl FN) ::
  Check (fun fl => Z.eqb (Z.lor FZ FN) fl) ::
  Call (byte_of (add 0 1)) [1] ::
  Check (fun fl => Z.eqb 0 fl) ::
  Call (byte_of (add 15 1)) [16] ::
  Check (fun fl => Z.eqb FH fl) ::
  Call (byte_of (add 255 255)) [254] ::
  Check (fun fl => Z.eqb (Z.lor (Z.lor (Z.lor FS FH) FC) FXY) fl) ::
  Call (byte_of (add 17 239)) [0] ::
  Check (fun fl => Z.eqb (Z.lor (Z.lor FZ FH) FC) fl) ::
  Call (byte_of (add 23 240)) [7] ::
  Check (fun fl => Z.eqb FC fl) ::
  Set_ 0 ::
  Check (fun fl => Z.eqb 0 fl) ::
  Call (byte_of (adc 0 0)) [0] ::
  Check (fun fl => Z.eqb FZ fl) ::
  Change (fun fl => finsert fl FC) ::
  Call (byte_of (adc 0 0)) [1] ::
  Check (fun fl => Z.eqb 0 fl) ::
  Call (byte_of (adc 16 255)) [15] ::
  Check (fun fl => Z.eqb (Z.lor FX FC) fl) ::
  Change (fun fl => fremove fl FC) ::
  Call (byte_of (adc 255 16)) [15] ::
  Check (fun fl => Z.eqb (Z.lor FX FC) fl) ::
  Call (byte_of (adc 16 255)) [16] ::
  Check (fun fl => Z.eqb (Z.lor FH FC) fl) ::
  Change (fun fl => fremove fl FC) ::
  Call (byte_of (adc 128 128)) [0] ::
  Check (fun fl => Z.eqb (Z.lor (Z.lor FZ FPV) FC) fl) ::
  Call (byte_of (adc 128 128)) [1] ::
  Check (fun fl => Z.eqb (Z.lor FPV FC) fl) ::
  Call (byte_of (adc 127 128)) [0] ::
  Check (fun fl => Z.eqb (Z.lor (Z.lor FZ FH) FC) fl) ::
  Change (fun fl => fremove fl FC) ::
  Call (byte_of (adc 127 128)) [255] ::
  Check (fun fl => Z.eqb (Z.lor FS FXY) fl) ::
  Call (byte_of (adc 128 127)) [255] ::
  Check (fun fl => Z.eqb (Z.lor FS FXY) fl) ::
  Change (fun fl => finsert fl FC) ::
  Call (byte_of (adc 128 127)) [0] ::
  Check (fun fl => Z.eqb (Z.lor (Z.lor FZ FH) FC) fl) ::
  Call (byte_of (adc 0 127)) [128] ::
  Check (fun fl => Z.eqb (Z.lor (Z.lor FS FH) FPV) fl) ::
  Call (byte_of (adc 0 127)) [127] ::
  Check (fun fl => Z.eqb FXY fl) ::
  Call (byte_of (adc 127 0)) [127] ::
  Check (fun fl => Z.eqb FXY fl) ::
  Call (byte_of (adc 127 1)) [128] ::
  Check (fun fl => Z.eqb (Z.lor (Z.lor FS FH) FPV) fl) ::
  Change (fun fl => finsert fl FC) ::
  Call (byte_of (adc 127 0)) [128] ::
  Check (fun fl => Z.eqb (Z.lor (Z.lor FS FH) FPV) fl) ::
  Change (fun fl => finsert fl FC) ::
  Call (byte_of (adc 127 1)) [129] ::
  Check (fun fl => Z.eqb (Z.lor (Z.lor FS FH) FPV) fl) ::
  Call (byte_of (adc 128 255)) [127] ::
  Check (fun fl => Z.eqb (Z.lor (Z.lor FXY FPV) FC) fl) ::
  Call (byte_of (adc 128 255)) [128] ::
  Check (fun fl => Z.eqb (Z.lor (Z.lor FS FH) FC) fl) ::
  Call (byte_of (adc 255 128)) [128] ::
  Check (fun fl => Z.eqb (Z.lor (Z.lor FS FH) FC) fl) ::
  Change (fun fl => fremove fl FC) ::
  Call (byte_of (adc 255 128)) [127] ::
  Check (fun fl => Z.eqb (Z.lor (Z.lor FXY FPV) FC) fl) ::
  [].

(* ops.rs:625-698 *)
Definition ops_sub_works : list stmt :=
  Set_ 0 ::
  Call (byte_of (sub 0 0)) [0] ::
  Check (fun fl => Z.eqb (Z.lor FZ FN) fl) ::
  Call (byte_of (neg 0)) [0] ::
  Check (fun fl => Z.eqb (Z.lor FZ FN) fl) ::
  Each (upto 1 255) (fun i => Change (fun fl => fremove fl FN) ::
  Check (fun fl => Z.eqb FZ fl) ::
  Call (byte_of (sub i i)) [0] ::
  Check (fun fl => Z.eqb (Z.lor FZ FN) fl) ::
  []) ::
  Call (byte_of (sub 2 1)) [1] ::
  Check (fun fl => Z.eqb FN fl) ::
  Call (byte_of (sub 16 1)) [15] ::
  Check (fun fl => Z.eqb (Z.lor (Z.lor FH FX) FN) fl) ::
  Call (byte_of (sub 254 255)) [255] ::
  Check (fun fl => Z.eqb (Z.lor (Z.lor (Z.lor (Z.lor FS FH) FXY) FN) FC) fl) ::
  Call (byte_of (sub 255 254)) [1] ::
  Check (fun fl => Z.eqb FN fl) ::
  Call (byte_of (sub 0 239)) [17] ::
  Check (fun fl => Z.eqb (Z.lor (Z.lor FH FN) FC) fl) ::
  Call (byte_of (neg 239)) [17] ::
  Check (fun fl => Z.eqb (Z.lor (Z.lor FH FN) FC) fl) ::
  Call (byte_of (neg 17)) [239] ::
  Check (fun fl => Z.eqb (Z.lor (Z.lor (Z.lor (Z.lor FS FXY) FH) FN) FC) fl) ::
  Call (byte_of (sub 7 240)) [23] ::
  Check (fun fl => Z.eqb (Z.lor FC FN) fl) ::
  Call (byte_of (sub 128 1)) [127] ::
  Check (fun fl => Z.eqb (Z.lor (Z.lor (Z.lor FPV FXY) FH) FN) fl) ::
  Call (byte_of (sub 1 128)) [129] ::
  Check (fun fl => Z.eqb (Z.lor (Z.lor (Z.lor FS FPV) FN) FC) fl) ::
  Call (byte_of (sub 127 255)) [128] ::
  Check (fun fl => Z.eqb (Z.lor (Z.lor (Z.lor FS FPV) FN) FC) fl) ::
  Call (byte_of (sub 255 127)) [128] ::
  Check (fun fl => Z.eqb (Z.lor FS FN) fl) ::
  Set_ 0 ::
  Call (byte_of (sbc 0 0)) [0] ::
  Check (fun fl => Z.eqb (Z.lor FZ FN) fl) ::
  Change (fun fl => finsert fl FC) ::
  Call (byte_of (sbc 0 0)) [255] ::
  Check (fun fl => Z.eqb (Z.lor (Z.lor (Z.lor (Z.lor FS FXY) FH) FN) FC) fl) ::
  Call (byte_of (sbc 255 127)) [127] ::
  Check (fun fl => Z.eqb (Z.lor (Z.lor (Z.lor FXY FH) FPV) FN) fl) ::
  Call (byte_of (sbc 255 127)) [128] ::
  Check (fun fl => Z.eqb (Z.lor FS FN) fl) ::
  Call (byte_of (sbc 127 255)) [128] ::
  Check (fun fl => Z.eqb (Z.lor (Z.lor (Z.lor FS FPV) FN) FC) fl) ::
  Call (byte_of (sbc 127 255)) [127] ::
  Check (fun fl => Z.eqb (Z.lor (Z.lor (Z.lor FXY FH) FN) FC) fl) ::
  Call (byte_of (sbc 128 128)) [255] ::
  Check (fun fl => Z.eqb (Z.lor (Z.lor (Z.lor (Z.lor FS FXY) FH) FN) FC) fl) ::
  Change (fun fl => fremove fl FC) ::
  Call (byte_of (sbc 128 128)) [0] ::
  Check (fun fl => Z.eqb (Z.lor FZ FN) fl) ::
  Call (byte_of (sbc 128 255)) [129] ::
  Check (fun fl => Z.eqb (Z.lor (Z.lor (Z.lor FS FH) FN) FC) fl) ::
  Call (byte_of (sbc 128 255)) [128] ::
  Check (fun fl => Z.eqb (Z.lor (Z.lor (Z.lor FS FH) FN) FC) fl) ::
  Call (byte_of (sbc 128 0)) [127] ::
  Check (fun fl => Z.eqb (Z.lor (Z.lor (Z.lor FXY FH) FPV) FN) fl) ::
  Call (byte_of (sbc 128 0)) [128] ::
  Check (fun fl => Z.eqb (Z.lor FS FN) fl) ::
  Call (byte_of (sbc 128 1)) [127] ::
  Check (fun fl => Z.eqb (Z.lor (Z.lor (Z.lor FXY FH) FPV) FN) fl) ::
  Change (fun fl => finsert fl FC) ::
  Call (byte_of (sbc 128 1)) [126] ::
  Check (fun fl => Z.eqb (Z.lor (Z.lor (Z.lor FXY FH) FPV) FN) fl) ::
  Call (byte_of (sbc 1 1)) [0] ::
  Check (fun fl => Z.eqb (Z.lor FZ FN) fl) ::
  Change (fun fl => finsert fl FC) ::
  Call (byte_of (sbc 1 1)) [255] ::
  Check (fun fl => Z.eqb (Z.lor (Z.lor (Z.lor (Z.lor FS FXY) FH) FN) FC) fl) ::
  [].

(* ops.rs:701-731 *)
Definition ops_cp_works : list stmt :=
  Set_ 0 ::
  Call (none_of (cp 0 0)) [] ::
  Check (fun fl => Z.eqb (Z.lor FZ FN) fl) ::
  Change (fun fl => fremove fl FN) ::
  Check (fun fl => Z.eqb FZ fl) ::
  Each (upto 1 255) (fun i => Call (none_of (cp i i)) [] ::
  Check (fun fl => Z.eqb (Z.lor (Z.lor FZ FN) (mask_xy i)) fl) ::
  []) ::
  Call (none_of (cp 2 1)) [] ::
  Check (fun fl => Z.eqb FN fl) ::
  Call (none_of (cp 16 1)) [] ::
  Check (fun fl => Z.eqb (Z.lor FH FN) fl) ::
  Call (none_of (cp 254 255)) [] ::
  Check (fun fl => Z.eqb (Z.lor (Z.lor (Z.lor (Z.lor FS FH) FC) FXY) FN) fl) ::
  Call (none_of (cp 255 254)) [] ::
  Check (fun fl => Z.eqb (Z.lor FXY FN) fl) ::
  Call (none_of (cp 0 239)) [] ::
  Check (fun fl => Z.eqb (Z.lor (Z.lor (Z.lor FH FC) FXY) FN) fl) ::
  Call (none_of (cp 7 240)) [] ::
  Check (fun fl => Z.eqb (Z.lor (Z.lor FC FN) FY) fl) ::
  Call (none_of (cp 128 1)) [] ::
  Check (fun fl => Z.eqb (Z.lor (Z.lor FPV FH) FN) fl) ::
  Call (none_of (cp 1 128)) [] ::
  Check (fun fl => Z.eqb (Z.lor (Z.lor (Z.lor FS FPV) FC) FN) fl) ::
  Call (none_of (cp 127 255)) [] ::
  Check (fun fl => Z.eqb (Z.lor (Z.lor (Z.lor (Z.lor FS FPV) FC) FXY) FN) fl) ::
  Call (none_of (cp 255 127)) [] ::
  Check (fun fl => Z.eqb (Z.lor (Z.lor FS FXY) FN) fl) ::
  [].

(* ops.rs:734-759 *)
Definition ops_inc_works : list stmt :=
  Set_ 0 ::
  Call (byte_of (inc 0)) [1] ::
  Check (fun fl => Z.eqb 0 fl) ::
  Change (fun fl => finsert fl FN) ::
  Call (byte_of (inc 255)) [0] ::
  Check (fun fl => Z.eqb (Z.lor FZ FH) fl) ::
  Change (fun fl => finsert fl FC) ::
  Call (byte_of (inc 255)) [0] ::
  Check (fun fl => Z.eqb (Z.lor (Z.lor FZ FH) FC) fl) ::
  Change (fun fl => fremove fl FC) ::
  Call (byte_of (inc 15)) [16] ::
  Check (fun fl => Z.eqb FH fl) ::
  Call (byte_of (inc 16)) [17] ::
  Check (fun fl => Z.eqb 0 fl) ::
  Call (byte_of (inc 127)) [128] ::
  Check (fun fl => Z.eqb (Z.lor (Z.lor FS FH) FPV) fl) ::
  Call (byte_of (inc 128)) [129] ::
  Check (fun fl => Z.eqb FS fl) ::
  Call (byte_of (inc 143)) [144] ::
  Check (fun fl => Z.eqb (Z.lor FS FH) fl) ::
  Call (byte_of (inc 136)) [137] ::
  Check (fun fl => Z.eqb (Z.lor FS FX) fl) ::
  Call (byte_of (inc 120)) [121] ::
  Check (fun fl => Z.eqb FXY fl) ::
  [].

(* ops.rs:762-776 *)
Definition ops_dec_works : list stmt :=
  Set_ 0 ::
  Call (byte_of (dec 2)) [1] ::
  Check (fun fl => Z.eqb FN fl) ::
  Change (fun fl => finsert fl FC) ::
  Call (byte_of (dec 1)) [0] ::
  Check (fun fl => Z.eqb (Z.lor (Z.lor FZ FN) FC) fl) ::
  Change (fun fl => fremove fl FC) ::
  Call (byte_of (dec 1)) [0] ::
  Check (fun fl => Z.eqb (Z.lor FZ FN) fl) ::
  Call (byte_of (dec 0)) [255] ::
  Check (fun fl => Z.eqb (Z.lor (Z.lor (Z.lor FS FH) FXY) FN) fl) ::
  Call (byte_of (dec 128)) [127] ::
  Check (fun fl => Z.eqb (Z.lor (Z.lor (Z.lor FH FXY) FPV) FN) fl) ::
  [].

(* ops.rs:779-790 *)
Definition ops_cpl_works : list stmt :=
  Set_ (Z.lor (Z.lor (Z.lor FS FZ) FC) FPV) ::
  Call (byte_of (cpl 85)) [170] ::
  Check (fun fl => Z.eqb 255 fl) ::
  Call (byte_of (cpl 170)) [85] ::
  Check (fun fl => Z.eqb (Z.lor (Z.lor (Z.lor (Z.lor (Z.lor FS FZ) FC) FPV) FH) FN) fl) ::
  Set_ 0 ::
  Call (byte_of (cpl 0)) [255] ::
  Check (fun fl => Z.eqb (Z.lor (Z.lor FXY FH) FN) fl) ::
  Call (byte_of (cpl 255)) [0] ::
  Check (fun fl => Z.eqb (Z.lor FH FN) fl) ::
  [].

(* ops.rs:793-811 *)
Definition ops_xcf_works : list stmt :=
  Set_ 255 ::
  Call (none_of (ccf 0)) [] ::
  Check (fun fl => Z.eqb (Z.lor (Z.lor (Z.lor FS FZ) FPV) FH) fl) ::
  Call (none_of (ccf 0)) [] ::
  Check (fun fl => Z.eqb (Z.lor (Z.lor (Z.lor FS FZ) FPV) FC) fl) ::
  Call (none_of (ccf 255)) [] ::
  Check (fun fl => Z.eqb (Z.lor (Z.lor (Z.lor (Z.lor FS FZ) FPV) FH) FXY) fl) ::
  Call (none_of (ccf 255)) [] ::
  Check (fun fl => Z.eqb (Z.lor (Z.lor (Z.lor (Z.lor FS FZ) FPV) FC) FXY) fl) ::
  Call (none_of (ccf 240)) [] ::
  Check (fun fl => Z.eqb (Z.lor (Z.lor (Z.lor (Z.lor FS FZ) FPV) FH) FY) fl) ::
  Call (none_of (scf 0)) [] ::
  Check (fun fl => Z.eqb (Z.lor (Z.lor (Z.lor FS FZ) FPV) FC) fl) ::
  Call (none_of (scf 255)) [] ::
  Check (fun fl => Z.eqb (Z.lor (Z.lor (Z.lor (Z.lor FS FZ) FPV) FC) FXY) fl) ::
  Call (none_of (scf 15)) [] ::
  Check (fun fl => Z.eqb (Z.lor (Z.lor (Z.lor (Z.lor FS FZ) FPV) FC) FX) fl) ::
  [].

(* ops.rs:814-849 *)
Definition ops_bitops_work : list stmt :=
  Set_ FC ::
  Call (byte_of (and8 0 0)) [0] ::
  Check (fun fl => Z.eqb (Z.lor (Z.lor FZ FPV) FH) fl) ::
  Change (fun fl => finsert fl FC) ::
  Call (byte_of (and8 0 1)) [0] ::
  Check (fun fl => Z.eqb (Z.lor (Z.lor FZ FPV) FH) fl) ::
  Call (byte_of (and8 1 1)) [1] ::
  Check (fun fl => Z.eqb FH fl) ::
  Call (byte_of (and8 3 255)) [3] ::
  Check (fun fl => Z.eqb (Z.lor FH FPV) fl) ::
  Call (byte_of (and8 255 255)) [255] ::
  Check (fun fl => Z.eqb (Z.lor (Z.lor (Z.lor FS FXY) FH) FPV) fl) ::
  Change (fun fl => finsert fl FC) ::
  Call (byte_of (or8 0 0)) [0] ::
  Check (fun fl => Z.eqb (Z.lor FZ FPV) fl) ::
  Call (byte_of (or8 0 1)) [1] ::
  Check (fun fl => Z.eqb 0 fl) ::
  Call (byte_of (or8 1 1)) [1] ::
  Check (fun fl => Z.eqb 0 fl) ::
  Call (byte_of (or8 3 255)) [255] ::
  Check (fun fl => Z.eqb (Z.lor (Z.lor FS FXY) FPV) fl) ::
  Call (byte_of (or8 255 255)) [255] ::
  Check (fun fl => Z.eqb (Z.lor (Z.lor FS FXY) FPV) fl) ::
  Change (fun fl => finsert fl FC) ::
  Call (byte_of (xor8 0 0)) [0] ::
  Check (fun fl => Z.eqb (Z.lor FZ FPV) fl) ::
  Call (byte_of (xor8 0 1)) [1] ::
  Check (fun fl => Z.eqb 0 fl) ::
  Call (byte_of (xor8 1 1)) [0] ::
  Check (fun fl => Z.eqb (Z.lor FZ FPV) fl) ::
  Call (byte_of (xor8 3 255)) [252] ::
  Check (fun fl => Z.eqb (Z.lor (Z.lor FS FXY) FPV) fl) ::
  Call (byte_of (xor8 255 255)) [0] ::
  Check (fun fl => Z.eqb (Z.lor FZ FPV) fl) ::
  [].

(* ops.rs:852-949 *)
Definition ops_daa_works : list stmt :=
  Set_ 0 ::
  Call (after (add 0 0) Ops.daa) [0] ::
  Check (fun fl => Z.eqb (Z.lor FZ FPV) fl) ::
  Call (after (add 1 1) Ops.daa) [2] ::
  Check (fun fl => Z.eqb 0 fl) ::
  Call (after (add 9 1) Ops.daa) [16] ::
  Check (fun fl => Z.eqb FH fl) ::
  Call (after (add 1 9) Ops.daa) [16] ::
  Check (fun fl => Z.eqb FH fl) ::
  Call (after (add 9 9) Ops.daa) [24] ::
  Check (fun fl => Z.eqb (Z.lor FX FPV) fl) ::
  Call (after (add 255 255) Ops.daa) [100] ::
  Check (fun fl => Z.eqb (Z.lor (Z.lor FY FH) FC) fl) ::
  Call (after (add 0 255) Ops.daa) [101] ::
  Check (fun fl => Z.eqb (Z.lor (Z.lor (Z.lor FY FH) FPV) FC) fl) ::
  Call (after (add 255 0) Ops.daa) [101] ::
  Check (fun fl => Z.eqb (Z.lor (Z.lor (Z.lor FY FH) FPV) FC) fl) ::
  Call (after (add 255 153) Ops.daa) [254] ::
  Check (fun fl => Z.eqb (Z.lor (Z.lor FS FXY) FC) fl) ::
  Call (after (add 153 255) Ops.daa) [254] ::
  Check (fun fl => Z.eqb (Z.lor (Z.lor FS FXY) FC) fl) ::
  Call (after (add 153 153) Ops.daa) [152] ::
  Check (fun fl => Z.eqb (Z.lor (Z.lor FS FX) FC) fl) ::
  Call (after (add 153 17) Ops.daa) [16] ::
  Check (fun fl => Z.eqb (Z.lor FH FC) fl) ::
  Call (after (add 17 153) Ops.daa) [16] ::
  Check (fun fl => Z.eqb (Z.lor FH FC) fl) ::
  Call (after (add 153 1) Ops.daa) [0] ::
  Check (fun fl => Z.eqb (Z.lor (Z.lor (Z.lor FZ FH) FPV) FC) fl) ::
  Call (after (add 1 153) Ops.daa) [0] ::
  Check (fun fl => Z.eqb (Z.lor (Z.lor (Z.lor FZ FH) FPV) FC) fl) ::
  Call (after (add 144 25) Ops.daa) [9] ::
  Check (fun fl => Z.eqb (Z.lor (Z.lor FX FPV) FC) fl) ::
  Call (after (add 25 144) Ops.daa) [9] ::
  Check (fun fl => Z.eqb (Z.lor (Z.lor FX FPV) FC) fl) ::
  Each (upto 0 255) (fun i => Call (after (sub i i) Ops.daa) [0] ::
  Check (fun fl => Z.eqb (Z.lor (Z.lor FZ FPV) FN) fl) ::
  []) ::
  Call (after (sub 1 0) Ops.daa) [1] ::
  Check (fun fl => Z.eqb FN fl) ::
  Call (after (sub 0 1) Ops.daa) [153] ::
  Check (fun fl => Z.eqb (Z.lor (Z.lor (Z.lor (Z.lor FS FX) FPV) FN) FC) fl) ::
  Each [0; 2; 3] (fun i => Call (after (sub i 255) Ops.daa) [(Z.add 155 i)] ::
  Check (fun fl => Z.eqb (Z.lor (Z.lor (Z.lor (Z.lor FS FH) FX) FN) FC) fl) ::
  []) ::
  Each [1; 4] (fun i => Call (after (sub i 255) Ops.daa) [(Z.add 155 i)] ::
  Check (fun fl => Z.eqb (Z.lor (Z.lor (Z.lor (Z.lor (Z.lor FS FH) FX) FPV) FN) FC) fl) ::
  []) ::
  Each [5; 8; 10; 11] (fun i => Call (after (sub i 255) Ops.daa) [(Z.add 155 i)] ::
  Check (fun fl => Z.eqb (Z.lor (Z.lor (Z.lor (Z.lor FS FY) FPV) FN) FC) fl) ::
  []) ::
  Each [6; 7; 9; 12] (fun i => Call (after (sub i 255) Ops.daa) [(Z.add 155 i)] ::
  Check (fun fl => Z.eqb (Z.lor (Z.lor (Z.lor FS FY) FN) FC) fl) ::
  []) ::
  Call (after (sub 15 255) Ops.daa) [176] ::
  Check (fun fl => Z.eqb (Z.lor (Z.lor (Z.lor FS FY) FN) FC) fl) ::
  Call (after (sub 13 255) Ops.daa) [168] ::
  Check (fun fl => Z.eqb (Z.lor (Z.lor (Z.lor FS FXY) FN) FC) fl) ::
  Call (after (sub 14 255) Ops.daa) [169] ::
  Check (fun fl => Z.eqb (Z.lor (Z.lor (Z.lor (Z.lor FS FXY) FPV) FN) FC) fl) ::
  Call (after (sub 255 0) Ops.daa) [153] ::
  Check (fun fl => Z.eqb (Z.lor (Z.lor (Z.lor (Z.lor FS FX) FPV) FN) FC) fl) ::
  Call (after (sub 16 1) Ops.daa) [9] ::
  Check (fun fl => Z.eqb (Z.lor (Z.lor FX FPV) FN) fl) ::
  Call (after (sub 1 16) Ops.daa) [145] ::
  Check (fun fl => Z.eqb (Z.lor (Z.lor FS FN) FC) fl) ::
  Call (after (sub 17 153) Ops.daa) [18] ::
  Check (fun fl => Z.eqb (Z.lor (Z.lor FPV FN) FC) fl) ::
  Call (after (sub 153 17) Ops.daa) [136] ::
  Check (fun fl => Z.eqb (Z.lor (Z.lor (Z.lor FS FX) FPV) FN) fl) ::
  Call (after (sub 144 16) Ops.daa) [128] ::
  Check (fun fl => Z.eqb (Z.lor FS FN) fl) ::
  Call (after (sub 16 144) Ops.daa) [32] ::
  Check (fun fl => Z.eqb (Z.lor (Z.lor FY FN) FC) fl) ::
  Call (after (sub 1 9) Ops.daa) [146] ::
  Check (fun fl => Z.eqb (Z.lor (Z.lor FS FN) FC) fl) ::
  Call (after (sub 9 1) Ops.daa) [8] ::
  Check (fun fl => Z.eqb (Z.lor FX FN) fl) ::
  Call (after (sub 152 153) Ops.daa) [153] ::
  Check (fun fl => Z.eqb (Z.lor (Z.lor (Z.lor (Z.lor FS FX) FPV) FN) FC) fl) ::
  Call (after (sub 153 152) Ops.daa) [1] ::
  Check (fun fl => Z.eqb FN fl) ::
  Call (after (sub 144 9) Ops.daa) [129] ::
  Check (fun fl => Z.eqb (Z.lor (Z.lor FS FPV) FN) fl) ::
  Call (after (sub 9 144) Ops.daa) [25] ::
  Check (fun fl => Z.eqb (Z.lor (Z.lor FX FN) FC) fl) ::
  Call (after (sub 170 10) Ops.daa) [64] ::
  Check (fun fl => Z.eqb (Z.lor FN FC) fl) ::
  Call (after (sub 10 170) Ops.daa) [0] ::
  Check (fun fl => Z.eqb (Z.lor (Z.lor (Z.lor FZ FPV) FN) FC) fl) ::
  [].

(* ops.rs:952-1132 *)
Definition ops_rotshift_works : list stmt :=
  Set_ 255 ::
  Call (byte_of (rlca 0)) [0] ::
  Check (fun fl => Z.eqb (Z.lor (Z.lor FS FZ) FPV) fl) ::
  Set_ 255 ::
  Call (byte_of (rrca 0)) [0] ::
  Check (fun fl => Z.eqb (Z.lor (Z.lor FS FZ) FPV) fl) ::
  Set_ 255 ::
  Call (byte_of (rlca 128)) [1] ::
  Check (fun fl => Z.eqb (Z.lor (Z.lor (Z.lor FS FZ) FPV) FC) fl) ::
  Set_ 255 ::
  Call (byte_of (rrca 1)) [128] ::
  Check (fun fl => Z.eqb (Z.lor (Z.lor (Z.lor FS FZ) FPV) FC) fl) ::
  Set_ 255 ::
  Call (byte_of (rlca 127)) [254] ::
  Check (fun fl => Z.eqb (Z.lor (Z.lor (Z.lor FS FZ) FPV) FXY) fl) ::
  Set_ 255 ::
  Call (byte_of (rrca 254)) [127] ::
  Check (fun fl => Z.eqb (Z.lor (Z.lor (Z.lor FS FZ) FPV) FXY) fl) ::
  Set_ 255 ::
  Call (byte_of (rla 0)) [1] ::
  Check (fun fl => Z.eqb (Z.lor (Z.lor FS FZ) FPV) fl) ::
  Set_ 255 ::
  Call (byte_of (rra 0)) [128] ::
  Check (fun fl => Z.eqb (Z.lor (Z.lor FS FZ) FPV) fl) ::
  Set_ 0 ::
  Call (byte_of (rla 0)) [0] ::
  Check (fun fl => Z.eqb 0 fl) ::
  Set_ 0 ::
  Call (byte_of (rra 0)) [0] ::
  Check (fun fl => Z.eqb 0 fl) ::
  Set_ 255 ::
  Call (byte_of (rla 127)) [255] ::
  Check (fun fl => Z.eqb (Z.lor (Z.lor (Z.lor FS FZ) FPV) FXY) fl) ::
  Set_ 255 ::
  Call (byte_of (rra 254)) [255] ::
  Check (fun fl => Z.eqb (Z.lor (Z.lor (Z.lor FS FZ) FPV) FXY) fl) ::
  Set_ 0 ::
  Call (byte_of (rla 128)) [0] ::
  Check (fun fl => Z.eqb FC fl) ::
  Call (byte_of (rra 0)) [128] ::
  Check (fun fl => Z.eqb 0 fl) ::
  Call (byte_of (rra 1)) [0] ::
  Check (fun fl => Z.eqb FC fl) ::
  Call (byte_of (rla 0)) [1] ::
  Check (fun fl => Z.eqb 0 fl) ::
  Set_ 255 ::
  Call (byte_of (rlc 0)) [0] ::
  Check (fun fl => Z.eqb (Z.lor FZ FPV) fl) ::
  Set_ 0 ::
  Call (byte_of (rlc 0)) [0] ::
  Check (fun fl => Z.eqb (Z.lor FZ FPV) fl) ::
  Set_ 255 ::
  Call (byte_of (rrc 0)) [0] ::
  Check (fun fl => Z.eqb (Z.lor FZ FPV) fl) ::
  Set_ 0 ::
  Call (byte_of (rrc 0)) [0] ::
  Check (fun fl => Z.eqb (Z.lor FZ FPV) fl) ::
  Set_ 255 ::
  Call (byte_of (rlc 128)) [1] ::
  Check (fun fl => Z.eqb FC fl) ::
  Set_ 255 ::
  Call (byte_of (rrc 1)) [128] ::
  Check (fun fl => Z.eqb (Z.lor FS FC) fl) ::
  Set_ 255 ::
  Call (byte_of (rlc 127)) [254] ::
  Check (fun fl => Z.eqb (Z.lor FS FXY) fl) ::
  Set_ 255 ::
  Call (byte_of (rrc 254)) [127] ::
  Check (fun fl => Z.eqb FXY fl) ::
  Set_ 255 ::
  Call (byte_of (rl 0)) [1] ::
  Check (fun fl => Z.eqb 0 fl) ::
  Set_ 255 ::
  Call (byte_of (rr 0)) [128] ::
  Check (fun fl => Z.eqb FS fl) ::
  Set_ 0 ::
  Call (byte_of (rl 0)) [0] ::
  Check (fun fl => Z.eqb (Z.lor FZ FPV) fl) ::
  Set_ 0 ::
  Call (byte_of (rr 0)) [0] ::
  Check (fun fl => Z.eqb (Z.lor FZ FPV) fl) ::
  Set_ 255 ::
  Call (byte_of (rl 127)) [255] ::
  Check (fun fl => Z.eqb (Z.lor (Z.lor FS FPV) FXY) fl) ::
  Set_ 255 ::
  Call (byte_of (rr 254)) [255] ::
  Check (fun fl => Z.eqb (Z.lor (Z.lor FS FPV) FXY) fl) ::
  Set_ 0 ::
  Call (byte_of (rl 128)) [0] ::
  Check (fun fl => Z.eqb (Z.lor (Z.lor FZ FPV) FC) fl) ::
  Call (byte_of (rr 0)) [128] ::
  Check (fun fl => Z.eqb FS fl) ::
  Call (byte_of (rr 1)) [0] ::
  Check (fun fl => Z.eqb (Z.lor (Z.lor FZ FPV) FC) fl) ::
  Call (byte_of (rl 0)) [1] ::
  Check (fun fl => Z.eqb 0 fl) ::
  Set_ 255 ::
  Call (byte_of (sla 0)) [0] ::
  Check (fun fl => Z.eqb (Z.lor FZ FPV) fl) ::
  Set_ 255 ::
  Call (byte_of (sll 0)) [1] ::
  Check (fun fl => Z.eqb 0 fl) ::
  Set_ 255 ::
  Call (byte_of (sla 128)) [0] ::
  Check (fun fl => Z.eqb (Z.lor (Z.lor FZ FPV) FC) fl) ::
  Set_ 255 ::
  Call (byte_of (sll 128)) [1] ::
  Check (fun fl => Z.eqb FC fl) ::
  Set_ 255 ::
  Call (byte_of (sll 128)) [1] ::
  Check (fun fl => Z.eqb FC fl) ::
  Set_ 255 ::
  Call (byte_of (sla 15)) [30] ::
  Check (fun fl => Z.eqb (Z.lor FPV FX) fl) ::
  Set_ 255 ::
  Call (byte_of (sll 15)) [31] ::
  Check (fun fl => Z.eqb FX fl) ::
  Set_ 255 ::
  Call (byte_of (sla 24)) [48] ::
  Check (fun fl => Z.eqb (Z.lor FPV FY) fl) ::
  Set_ 255 ::
  Call (byte_of (sll 24)) [49] ::
  Check (fun fl => Z.eqb FY fl) ::
  Set_ 255 ::
  Call (byte_of (sla 255)) [254] ::
  Check (fun fl => Z.eqb (Z.lor (Z.lor FS FXY) FC) fl) ::
  Set_ 255 ::
  Call (byte_of (sll 255)) [255] ::
  Check (fun fl => Z.eqb (Z.lor (Z.lor (Z.lor FS FXY) FPV) FC) fl) ::
  Set_ 255 ::
  Call (byte_of (sra 0)) [0] ::
  Check (fun fl => Z.eqb (Z.lor FZ FPV) fl) ::
  Set_ 255 ::
  Call (byte_of (srl 0)) [0] ::
  Check (fun fl => Z.eqb (Z.lor FZ FPV) fl) ::
  Set_ 255 ::
  Call (byte_of (sra 129)) [192] ::
  Check (fun fl => Z.eqb (Z.lor (Z.lor FS FPV) FC) fl) ::
  Call (byte_of (sra 128)) [192] ::
  Check (fun fl => Z.eqb (Z.lor FS FPV) fl) ::
  Set_ 255 ::
  Call (byte_of (srl 129)) [64] ::
  Check (fun fl => Z.eqb FC fl) ::
  Call (byte_of (srl 128)) [64] ::
  Check (fun fl => Z.eqb 0 fl) ::
  Set_ 255 ::
  Call (byte_of (sra 24)) [12] ::
  Check (fun fl => Z.eqb (Z.lor FPV FX) fl) ::
  Set_ 255 ::
  Call (byte_of (srl 24)) [12] ::
  Check (fun fl => Z.eqb (Z.lor FPV FX) fl) ::
  Set_ 255 ::
  Call (pair_of (rld 0 0)) [0; 0] ::
  Check (fun fl => Z.eqb (Z.lor (Z.lor FZ FPV) FC) fl) ::
  Set_ 0 ::
  Call (pair_of (rld 0 0)) [0; 0] ::
  Check (fun fl => Z.eqb (Z.lor FZ FPV) fl) ::
  Set_ 255 ::
  Call (pair_of (rld 80 255)) [95; 240] ::
  Check (fun fl => Z.eqb (Z.lor (Z.lor FX FPV) FC) fl) ::
  Set_ 0 ::
  Call (pair_of (rld 80 255)) [95; 240] ::
  Check (fun fl => Z.eqb (Z.lor FX FPV) fl) ::
  Set_ 255 ::
  Call (pair_of (rrd 0 0)) [0; 0] ::
  Check (fun fl => Z.eqb (Z.lor (Z.lor FZ FPV) FC) fl) ::
  Set_ 0 ::
  Call (pair_of (rrd 0 0)) [0; 0] ::
  Check (fun fl => Z.eqb (Z.lor FZ FPV) fl) ::
  Set_ 255 ::
  Call (pair_of (rrd 80 255)) [95; 15] ::
  Check (fun fl => Z.eqb (Z.lor (Z.lor FX FPV) FC) fl) ::
  Set_ 0 ::
  Call (pair_of (rrd 80 255)) [95; 15] ::
  Check (fun fl => Z.eqb (Z.lor FX FPV) fl) ::
  [].

(* ops.rs:1135-1183 *)
Definition ops_bit_works : list stmt :=
  Each (upto 0 255) (fun i => Each (upto 0 7) (fun b => (let mask := (shl8 1 b) in
  (let ibit := (Z.lor i mask) in
  (let fs := (Z.land FS (Z.land mask 255)) in
  (let fxy := (Z.land FXY (Z.land ibit 255)) in
  Set_ 255 ::
  Call (none_of (bit b ibit)) [] ::
  Check (fun fl => Z.eqb (Z.lor (Z.lor (Z.lor FH FC) fxy) fs) fl) ::
  Set_ 0 ::
  Call (none_of (bit b ibit)) [] ::
  Check (fun fl => Z.eqb (Z.lor (Z.lor (Z.lor FH fxy) fxy) fs) fl) ::
  (let ineg := (Z.land i (not8 mask)) in
  (let fxy := (Z.land FXY (Z.land ineg 255)) in
  Set_ 255 ::
  Call (none_of (bit b ineg)) [] ::
  Check (fun fl => Z.eqb (Z.lor (Z.lor (Z.lor (Z.lor FZ FPV) FH) FC) fxy) fl) ::
  Set_ 0 ::
  Call (none_of (bit b ineg)) [] ::
  Check (fun fl => Z.eqb (Z.lor (Z.lor (Z.lor FZ FPV) FH) fxy) fl) ::
  []))))))) ::
  []) ::
  Each (upto 0 255) (fun i => Each (upto 0 255) (fun mp => Each (upto 0 7) (fun b => (let mask := (shl8 1 b) in
  (let ibit := (Z.lor i mask) in
  (let fs := (Z.land FS (Z.land mask 255)) in
  (let fxy := (Z.land FXY (Z.land mp 255)) in
  Set_ 255 ::
  Call (none_of (bit_mp b ibit mp)) [] ::
  Check (fun fl => Z.eqb (Z.lor (Z.lor (Z.lor FH FC) fxy) fs) fl) ::
  Set_ 0 ::
  Call (none_of (bit_mp b ibit mp)) [] ::
  Check (fun fl => Z.eqb (Z.lor (Z.lor (Z.lor FH fxy) fxy) fs) fl) ::
  (let ineg := (Z.land i (not8 mask)) in
  (let fxy := (Z.land FXY (Z.land mp 255)) in
  Set_ 255 ::
  Call (none_of (bit_mp b ineg mp)) [] ::
  Check (fun fl => Z.eqb (Z.lor (Z.lor (Z.lor (Z.lor FZ FPV) FH) FC) fxy) fl) ::
  Set_ 0 ::
  Call (none_of (bit_mp b ineg mp)) [] ::
  Check (fun fl => Z.eqb (Z.lor (Z.lor (Z.lor FZ FPV) FH) fxy) fl) ::
  []))))))) ::
  []) ::
  []) ::
  [].

(* ops.rs:1186-1190 *)
Definition ops_set_res_works : list stmt :=
  Check (fun _ => Z.eqb (set 0 0) 1) ::
  Check (fun _ => Z.eqb (set 7 1) 129) ::
  Check (fun _ => Z.eqb (res 0 129) 128) ::
  [].

(* ops.rs:1193-1235 *)
Definition ops_ld_a_ir_works : list stmt :=
  Set_ 255 ::
  Call (none_of (ld_a_ir 0 true)) [] ::
  Check (fun fl => Z.eqb (Z.lor (Z.lor FZ FPV) FC) fl) ::
  Call (none_of (ld_a_ir 0 false)) [] ::
  Check (fun fl => Z.eqb (Z.lor FZ FC) fl) ::
  Set_ 0 ::
  Call (none_of (ld_a_ir 0 true)) [] ::
  Check (fun fl => Z.eqb (Z.lor FZ FPV) fl) ::
  Call (none_of (ld_a_ir 0 false)) [] ::
  Check (fun fl => Z.eqb FZ fl) ::
  Set_ 255 ::
  Call (none_of (ld_a_ir 255 true)) [] ::
  Check (fun fl => Z.eqb (Z.lor (Z.lor (Z.lor FS FXY) FPV) FC) fl) ::
  Call (none_of (ld_a_ir 255 false)) [] ::
  Check (fun fl => Z.eqb (Z.lor (Z.lor FS FXY) FC) fl) ::
  Set_ 0 ::
  Call (none_of (ld_a_ir 255 true)) [] ::
  Check (fun fl => Z.eqb (Z.lor (Z.lor FS FXY) FPV) fl) ::
  Call (none_of (ld_a_ir 255 false)) [] ::
  Check (fun fl => Z.eqb (Z.lor FS FXY) fl) ::
  Set_ 255 ::
  Call (none_of (ld_a_ir 15 true)) [] ::
  Check (fun fl => Z.eqb (Z.lor (Z.lor FX FPV) FC) fl) ::
  Call (none_of (ld_a_ir 15 false)) [] ::
  Check (fun fl => Z.eqb (Z.lor FX FC) fl) ::
  Set_ 0 ::
  Call (none_of (ld_a_ir 15 true)) [] ::
  Check (fun fl => Z.eqb (Z.lor FX FPV) fl) ::
  Call (none_of (ld_a_ir 15 false)) [] ::
  Check (fun fl => Z.eqb FX fl) ::
  Set_ 255 ::
  Call (none_of (ld_a_ir 240 true)) [] ::
  Check (fun fl => Z.eqb (Z.lor (Z.lor (Z.lor FS FY) FPV) FC) fl) ::
  Call (none_of (ld_a_ir 240 false)) [] ::
  Check (fun fl => Z.eqb (Z.lor (Z.lor FS FY) FC) fl) ::
  Set_ 0 ::
  Call (none_of (ld_a_ir 240 true)) [] ::
  Check (fun fl => Z.eqb (Z.lor (Z.lor FS FY) FPV) fl) ::
  Call (none_of (ld_a_ir 240 false)) [] ::
  Check (fun fl => Z.eqb (Z.lor FS FY) fl) ::
  [].

(* ops.rs:1238-1274 *)
Definition ops_ldx_works : list stmt :=
  Set_ 255 ::
  Call (none_of (ldx 0 0 true)) [] ::
  Check (fun fl => Z.eqb (Z.lor (Z.lor FS FZ) FC) fl) ::
  Call (none_of (ldx 0 0 false)) [] ::
  Check (fun fl => Z.eqb (Z.lor (Z.lor (Z.lor FS FZ) FC) FPV) fl) ::
  Set_ 0 ::
  Call (none_of (ldx 0 0 true)) [] ::
  Check (fun fl => Z.eqb 0 fl) ::
  Call (none_of (ldx 0 0 false)) [] ::
  Check (fun fl => Z.eqb FPV fl) ::
  Call (none_of (ldx 2 0 false)) [] ::
  Check (fun fl => Z.eqb (Z.lor FY FPV) fl) ::
  Call (none_of (ldx 8 0 false)) [] ::
  Check (fun fl => Z.eqb (Z.lor FX FPV) fl) ::
  Call (none_of (ldx 0 2 false)) [] ::
  Check (fun fl => Z.eqb (Z.lor FY FPV) fl) ::
  Call (none_of (ldx 0 8 false)) [] ::
  Check (fun fl => Z.eqb (Z.lor FX FPV) fl) ::
  Call (none_of (ldx 2 8 true)) [] ::
  Check (fun fl => Z.eqb FXY fl) ::
  Call (none_of (ldx 8 2 true)) [] ::
  Check (fun fl => Z.eqb FXY fl) ::
  Call (none_of (ldx 8 2 false)) [] ::
  Check (fun fl => Z.eqb (Z.lor FXY FPV) fl) ::
  Call (none_of (ldx 2 2 false)) [] ::
  Check (fun fl => Z.eqb FPV fl) ::
  Call (none_of (ldx 10 2 false)) [] ::
  Check (fun fl => Z.eqb (Z.lor FX FPV) fl) ::
  Call (none_of (ldx 10 8 false)) [] ::
  Check (fun fl => Z.eqb (Z.lor FY FPV) fl) ::
  Call (none_of (ldx 10 2 true)) [] ::
  Check (fun fl => Z.eqb FX fl) ::
  Call (none_of (ldx 10 8 true)) [] ::
  Check (fun fl => Z.eqb FY fl) ::
  [].

(* flags.rs:313-331 *)
Definition flags_base : list stmt :=
  Set_ 0 ::
  Check (fun fl => Z.eqb fl 0) ::
  Check (fun fl => Z.eqb fl 0) ::
  Check (fun fl => Bool.eqb (sf fl) false) ::
  Check (fun _ => Bool.eqb (sf FS) true) ::
  Check (fun fl => Bool.eqb (zf fl) false) ::
  Check (fun _ => Bool.eqb (zf FZ) true) ::
  Check (fun fl => Bool.eqb (hf fl) false) ::
  Check (fun _ => Bool.eqb (hf FH) true) ::
  Check (fun fl => Bool.eqb (pvf fl) false) ::
  Check (fun _ => Bool.eqb (pvf FPV) true) ::
  Check (fun _ => Bool.eqb (pvf FPV) true) ::
  Check (fun _ => Bool.eqb (pvf FPV) true) ::
  Check (fun fl => Bool.eqb (nf fl) false) ::
  Check (fun _ => Bool.eqb (nf FN) true) ::
  Check (fun fl => Bool.eqb (cf fl) false) ::
  Check (fun _ => Bool.eqb (cf FC) true) ::
  [].

(* flags.rs:334-441 *)
Definition flags_work : list stmt :=
  Check (fun _ => Z.eqb 0 0) ::
  Check (fun _ => Bool.eqb false (cf 0)) ::
  Set_ 0 ::
  Check (fun fl => Bool.eqb false (cf fl)) ::
  Change (fun fl => if true then finsert fl FC else fremove fl FC) ::
  Check (fun fl => Bool.eqb true (cf fl)) ::
  Change (fun fl => if false then finsert fl FC else fremove fl FC) ::
  Check (fun fl => Bool.eqb false (cf fl)) ::
  Check (fun fl => Z.eqb 0 fl) ::
  Check (fun fl => Bool.eqb false (hf fl)) ::
  Change (fun fl => if true then finsert fl FH else fremove fl FH) ::
  Check (fun fl => Bool.eqb true (hf fl)) ::
  Change (fun fl => if false then finsert fl FH else fremove fl FH) ::
  Check (fun fl => Bool.eqb false (hf fl)) ::
  Check (fun fl => Z.eqb 0 fl) ::
  Check (fun fl => Bool.eqb false (nf fl)) ::
  Change (fun fl => if true then finsert fl FN else fremove fl FN) ::
  Check (fun fl => Bool.eqb true (nf fl)) ::
  Change (fun fl => if false then finsert fl FN else fremove fl FN) ::
  Check (fun fl => Bool.eqb false (nf fl)) ::
  Check (fun fl => Z.eqb 0 fl) ::
  Set_ 255 ::
  Check (fun fl => Z.eqb 255 fl) ::
  Set_ 0 ::
  Check (fun fl => Z.eqb 0 fl) ::
  Check (fun _ => Z.eqb (Z.lor (Z.lor FC FPV) FZ) (mask_cvz true true true)) ::
  Check (fun _ => Z.eqb 0 (mask_xy 0)) ::
  Check (fun _ => Z.eqb FXY (mask_xy 255)) ::
  Check (fun _ => Z.eqb FX (mask_xy 8)) ::
  Check (fun _ => Z.eqb FY (mask_xy 247)) ::
  Check (fun _ => Z.eqb (Z.lor FPV FZ) (mask_cvz false true true)) ::
  Check (fun _ => Z.eqb FPV (mask_cvz false true false)) ::
  Check (fun _ => Z.eqb FZ (mask_cvz false false true)) ::
  Check (fun _ => Z.eqb 0 (mask_cvz false false false)) ::
  Check (fun _ => Z.eqb (Z.lor (Z.lor FC FPV) FZ) (mask_cvz true true true)) ::
  Check (fun _ => Z.eqb (Z.lor FS FXY) (mask_sxy 255)) ::
  Check (fun _ => Z.eqb FS (mask_sxy 215)) ::
  Check (fun _ => Z.eqb FXY (mask_sxy 40)) ::
  Check (fun _ => Z.eqb 0 (mask_nh_add 14 1)) ::
  Check (fun _ => Z.eqb FH (mask_nh_add 15 1)) ::
  Check (fun _ => Z.eqb FN (mask_nh_sub 31 1)) ::
  Check (fun _ => Z.eqb (Z.lor FH FN) (mask_nh_sub 16 1)) ::
  Check (fun _ => Z.eqb FH (mask_nh_adc 14 1 true)) ::
  Check (fun _ => Z.eqb 0 (mask_nh_adc 14 1 false)) ::
  Check (fun _ => Z.eqb FN (mask_nh_sbc 1 1 false)) ::
  Check (fun _ => Z.eqb (Z.lor FH FN) (mask_nh_sbc 0 1 false)) ::
  Check (fun _ => Z.eqb (Z.lor FH FN) (mask_nh_sbc 1 1 true)) ::
  Check (fun _ => Z.eqb (Z.lor FH FN) (mask_nh_sbc 0 1 true)) ::
  Check (fun _ => Z.eqb FN (mask_nh_sbc 8 0 true)) ::
  Check (fun _ => Z.eqb (Z.lor FH FN) (mask_nh_sbc 16 0 true)) ::
  Check (fun _ => Z.eqb 0 (mask_nh_add16 14 1)) ::
  Check (fun _ => Z.eqb 0 (mask_nh_add16 15 1)) ::
  Check (fun _ => Z.eqb 0 (mask_nh_add16 4094 1)) ::
  Check (fun _ => Z.eqb FH (mask_nh_add16 4095 1)) ::
  Check (fun _ => Z.eqb 0 (mask_nh_adc16 14 1 false)) ::
  Check (fun _ => Z.eqb 0 (mask_nh_adc16 14 1 true)) ::
  Check (fun _ => Z.eqb FH (mask_nh_adc16 4094 1 true)) ::
  Check (fun _ => Z.eqb FN (mask_nh_sbc16 1 1 false)) ::
  Check (fun _ => Z.eqb (Z.lor FH FN) (mask_nh_sbc16 0 1 false)) ::
  Check (fun _ => Z.eqb (Z.lor FH FN) (mask_nh_sbc16 1 1 true)) ::
  Check (fun _ => Z.eqb (Z.lor FH FN) (mask_nh_sbc16 0 1 true)) ::
  Check (fun _ => Z.eqb FN (mask_nh_sbc16 16 0 true)) ::
  Check (fun _ => Z.eqb (Z.lor FH FN) (mask_nh_sbc16 4096 0 true)) ::
  Check (fun _ => Z.eqb FN (mask_nh_sbc16 2048 0 true)) ::
  Check (fun _ => Z.eqb (Z.lor FH FN) (mask_nh_sbc16 4096 1 true)) ::
  Check (fun _ => Z.eqb FN (mask_nh_sbc16 2048 1 true)) ::
  Check (fun _ => Z.eqb (Z.lor FH FN) (mask_nh_sbc16 4096 1 false)) ::
  Check (fun _ => Z.eqb FN (mask_nh_sbc16 2048 1 false)) ::
  Each (upto 0 127) (fun i => Check (fun _ => Z.eqb 0 (mask_sign i)) ::
  []) ::
  Each (upto 128 255) (fun i => Check (fun _ => Z.eqb FS (mask_sign i)) ::
  []) ::
  Each (upto 1 255) (fun i => Check (fun _ => Z.eqb 0 (mask_zero i)) ::
  []) ::
  Check (fun _ => Z.eqb FZ (mask_zero 0)) ::
  Check (fun _ => Z.eqb 0 (mask_carry false)) ::
  Check (fun _ => Z.eqb FC (mask_carry true)) ::
  Check (fun _ => Z.eqb 0 (mask_nf false)) ::
  Check (fun _ => Z.eqb FN (mask_nf true)) ::
  Check (fun _ => Z.eqb 0 (mask_hf false)) ::
  Check (fun _ => Z.eqb FH (mask_hf true)) ::
  Check (fun _ => Z.eqb 0 (mask_hcf false)) ::
  Check (fun _ => Z.eqb (Z.lor FH FC) (mask_hcf true)) ::
  Check (fun _ => Z.eqb 0 (mask_pvf false)) ::
  Check (fun _ => Z.eqb FPV (mask_pvf true)) ::
  Check (fun _ => Z.eqb 0 (parity 1)) ::
  Check (fun _ => Z.eqb 0 (parity 7)) ::
  Check (fun _ => Z.eqb 0 (parity 254)) ::
  Check (fun _ => Z.eqb FPV (parity 0)) ::
  Check (fun _ => Z.eqb FPV (parity 3)) ::
  Check (fun _ => Z.eqb FPV (parity 255)) ::
  Check (fun _ => Z.eqb (Z.lor FZ FPV) (mask_bitops 0 false false)) ::
  Check (fun _ => Z.eqb (Z.lor (Z.lor FZ FPV) FH) (mask_bitops 0 true false)) ::
  Check (fun _ => Z.eqb (Z.lor (Z.lor (Z.lor FZ FPV) FH) FC) (mask_bitops 0 true true)) ::
  Check (fun _ => Z.eqb (Z.lor (Z.lor FZ FPV) FC) (mask_bitops 0 false true)) ::
  Check (fun _ => Z.eqb FS (mask_bitops 128 false false)) ::
  Check (fun _ => Z.eqb FY (mask_bitops 32 false false)) ::
  Check (fun _ => Z.eqb FX (mask_bitops 8 false false)) ::
  Check (fun _ => Z.eqb (Z.lor (Z.lor (Z.lor FS FXY) FH) FC) (mask_bitops 168 true true)) ::
  Check (fun _ => Z.eqb (Z.lor (Z.lor (Z.lor (Z.lor FPV FS) FXY) FH) FC) (mask_bitops 169 true true)) ::
  Each (upto 0 255) (fun i => Check (fun _ => Z.eqb i (Z.land i 255)) ::
  []) ::
  [].

Definition all_scripts : list (list stmt) :=
  [ops_add16_works;
   ops_sbc16_works;
   ops_add_works;
   ops_sub_works;
   ops_cp_works;
   ops_inc_works;
   ops_dec_works;
   ops_cpl_works;
   ops_xcf_works;
   ops_bitops_work;
   ops_daa_works;
   ops_rotshift_works;
   ops_bit_works;
   ops_set_res_works;
   ops_ld_a_ir_works;
   ops_ldx_works;
   flags_base;
   flags_work].
