(** Vocabulary of C32. *)
From Coq Require Import ZArith Bool String Ascii List.
From Verif Require Import Base Parse Cpu Flavours Accessors Any.
Import ListNotations.
Open Scope Z_scope.

(** Which variant holds a CPU of which flavour. *)
Inductive variant : forall {Q}, Flavour Q -> (cpu Q -> z80any) -> Prop :=
| v_nmos : variant NMOS nmos_into_any
| v_cmos : variant CMOS cmos_into_any
| v_bm1 : variant BM1 bm1_into_any.
(** Capital letters. *)
Definition upper (ch : ascii) : ascii :=
  let n := nat_of_ascii ch in if (Nat.leb 97 n && Nat.leb n 122)%bool then ascii_of_nat (n - 32) else ch.
Fixpoint upcase (s : string) : string := match s with EmptyString => EmptyString | String ch s => String (upper ch) (upcase s) end.
(** Registers and the rest of a [Z80Any], except the state of the flavour. *)
Definition any_rget (x : reg) (a : z80any) : Z := match a with AnyNMOS c => rget x c | AnyCMOS c => rget x c | AnyBM1 c => rget x c end.
Definition others' {Q} (c : cpu Q) := (get_pc c, get_sp c, memptr c, im c, (iff1 c, iff2 c), halt c, prefix c, last_ei c, (ir c, r c)).
Definition any_others (a : z80any) := match a with AnyNMOS c => others' c | AnyCMOS c => others' c | AnyBM1 c => others' c end.
