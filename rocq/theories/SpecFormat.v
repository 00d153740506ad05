(** What is asked of the text of a debugger report (C37). *)
From Coq Require Import ZArith Bool String Ascii List.
From Verif Require Import Base Parse Format.
Import ListNotations.
Open Scope Z_scope.

(** Every report can be formatted in every way: in decimal, lower or upper case hexadecimal, with any formatter. *)
Definition formattable (d : CpuDebug) : Prop :=
  forall x f, (exists s, fmt_debug x f d = Some s) /\ (exists s, fmt_args x f (dargs d) = Some s).
(** The columns of a listing are aligned: the mnemonic, the operands and the code always start at the same place. *)
Definition columns (x : radix) (alt : bool) : nat * nat * nat :=
  match x, alt with Dec, _ | _, false => (6, 11, 26)%nat | _, true => (7, 12, 28)%nat end.
