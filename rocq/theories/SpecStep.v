(** Vocabulary for properties of single execution steps, over the bus accesses [bev] and machine cycles [tev]
    of [SpecIsa]. *)
From Coq Require Import ZArith Bool List.
From Verif Require Import Parse SpecState SpecIsa SpecCycles.
Import ListNotations.
Open Scope Z_scope.

(** Number of M1 and interrupt-acknowledge cycles. *)
Definition m1s (cl : list tev) : Z := sum (map (fun e => match e with TM1 _ | TAck _ => 1 | _ => 0 end) cl).
(** R advanced by [n]: 7 bits count, bit 7 stays. *)
Definition r_plus (n r : Z) : Z := 128 * (r / 128) + (r mod 128 + n) mod 128.

Section Bus.
Context {WB RB : Type}.
Implicit Types bl : list (bev WB RB).
(** The op-codes the processor received, from memory or from an interrupting device. *)
Definition opcodes bl : list Z :=
  flat_map (fun e => match e with VOp _ _ v => [v] | VAck _ v _ => [v] | _ => [] end) bl.
(** The stores, in order. *)
Definition stores bl : list (Z * Z) :=
  flat_map (fun e => match e with VWr a v => [(a, v)] | _ => [] end) bl.
End Bus.
Fixpoint leqb (l m : list Z) : bool :=
  match l, m with [], [] => true | x :: l, y :: m => (x =? y) && leqb l m | _, _ => false end.
(** LD R,A is ED 4F. *)
Definition is_ld_r_a (ops : list Z) : bool := leqb ops [0xED; 0x4F].
(** RETN and RETI with their undocumented duplicates are ED followed by 01xxx101. *)
Definition is_retn (ops : list Z) : bool :=
  match ops with [0xED; x] => (x / 64 =? 1) && (x mod 8 =? 5) | _ => false end.
