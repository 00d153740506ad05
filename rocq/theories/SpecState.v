(** The architectural state of a Z80, as seen by the instruction-set specification.
    Generated by tools/gen_specstate.py. *)
From Coq Require Import ZArith Bool.
From Verif Require Import Parse.
Open Scope Z_scope.

Record arch (T : Type) := mkArch {
  aA : Z;
  aF : Z;
  aBC : Z;
  aDE : Z;
  aHL : Z;
  aAF' : Z;
  aBC' : Z;
  aDE' : Z;
  aHL' : Z;
  aIX : Z;
  aIY : Z;
  aSP : Z;
  aPC : Z;
  aWZ : Z;
  aI : Z;
  aR : Z;
  aIM : InterruptMode;
  aIFF1 : bool;
  aIFF2 : bool;
  aHALT : bool;
  aEI : bool;
  aPX : option Prefix;
  aQ : T
}.
Arguments mkArch {T}.
Arguments aA {T}.
Arguments aF {T}.
Arguments aBC {T}.
Arguments aDE {T}.
Arguments aHL {T}.
Arguments aAF' {T}.
Arguments aBC' {T}.
Arguments aDE' {T}.
Arguments aHL' {T}.
Arguments aIX {T}.
Arguments aIY {T}.
Arguments aSP {T}.
Arguments aPC {T}.
Arguments aWZ {T}.
Arguments aI {T}.
Arguments aR {T}.
Arguments aIM {T}.
Arguments aIFF1 {T}.
Arguments aIFF2 {T}.
Arguments aHALT {T}.
Arguments aEI {T}.
Arguments aPX {T}.
Arguments aQ {T}.
Section Upd.
Context {T : Type}.
Implicit Types a : arch T.
Definition wA (v : Z) a : arch T := mkArch v (aF a) (aBC a) (aDE a) (aHL a) (aAF' a) (aBC' a) (aDE' a) (aHL' a) (aIX a) (aIY a) (aSP a) (aPC a) (aWZ a) (aI a) (aR a) (aIM a) (aIFF1 a) (aIFF2 a) (aHALT a) (aEI a) (aPX a) (aQ a).
Definition wF (v : Z) a : arch T := mkArch (aA a) v (aBC a) (aDE a) (aHL a) (aAF' a) (aBC' a) (aDE' a) (aHL' a) (aIX a) (aIY a) (aSP a) (aPC a) (aWZ a) (aI a) (aR a) (aIM a) (aIFF1 a) (aIFF2 a) (aHALT a) (aEI a) (aPX a) (aQ a).
Definition wBC (v : Z) a : arch T := mkArch (aA a) (aF a) v (aDE a) (aHL a) (aAF' a) (aBC' a) (aDE' a) (aHL' a) (aIX a) (aIY a) (aSP a) (aPC a) (aWZ a) (aI a) (aR a) (aIM a) (aIFF1 a) (aIFF2 a) (aHALT a) (aEI a) (aPX a) (aQ a).
Definition wDE (v : Z) a : arch T := mkArch (aA a) (aF a) (aBC a) v (aHL a) (aAF' a) (aBC' a) (aDE' a) (aHL' a) (aIX a) (aIY a) (aSP a) (aPC a) (aWZ a) (aI a) (aR a) (aIM a) (aIFF1 a) (aIFF2 a) (aHALT a) (aEI a) (aPX a) (aQ a).
Definition wHL (v : Z) a : arch T := mkArch (aA a) (aF a) (aBC a) (aDE a) v (aAF' a) (aBC' a) (aDE' a) (aHL' a) (aIX a) (aIY a) (aSP a) (aPC a) (aWZ a) (aI a) (aR a) (aIM a) (aIFF1 a) (aIFF2 a) (aHALT a) (aEI a) (aPX a) (aQ a).
Definition wAF' (v : Z) a : arch T := mkArch (aA a) (aF a) (aBC a) (aDE a) (aHL a) v (aBC' a) (aDE' a) (aHL' a) (aIX a) (aIY a) (aSP a) (aPC a) (aWZ a) (aI a) (aR a) (aIM a) (aIFF1 a) (aIFF2 a) (aHALT a) (aEI a) (aPX a) (aQ a).
Definition wBC' (v : Z) a : arch T := mkArch (aA a) (aF a) (aBC a) (aDE a) (aHL a) (aAF' a) v (aDE' a) (aHL' a) (aIX a) (aIY a) (aSP a) (aPC a) (aWZ a) (aI a) (aR a) (aIM a) (aIFF1 a) (aIFF2 a) (aHALT a) (aEI a) (aPX a) (aQ a).
Definition wDE' (v : Z) a : arch T := mkArch (aA a) (aF a) (aBC a) (aDE a) (aHL a) (aAF' a) (aBC' a) v (aHL' a) (aIX a) (aIY a) (aSP a) (aPC a) (aWZ a) (aI a) (aR a) (aIM a) (aIFF1 a) (aIFF2 a) (aHALT a) (aEI a) (aPX a) (aQ a).
Definition wHL' (v : Z) a : arch T := mkArch (aA a) (aF a) (aBC a) (aDE a) (aHL a) (aAF' a) (aBC' a) (aDE' a) v (aIX a) (aIY a) (aSP a) (aPC a) (aWZ a) (aI a) (aR a) (aIM a) (aIFF1 a) (aIFF2 a) (aHALT a) (aEI a) (aPX a) (aQ a).
Definition wIX (v : Z) a : arch T := mkArch (aA a) (aF a) (aBC a) (aDE a) (aHL a) (aAF' a) (aBC' a) (aDE' a) (aHL' a) v (aIY a) (aSP a) (aPC a) (aWZ a) (aI a) (aR a) (aIM a) (aIFF1 a) (aIFF2 a) (aHALT a) (aEI a) (aPX a) (aQ a).
Definition wIY (v : Z) a : arch T := mkArch (aA a) (aF a) (aBC a) (aDE a) (aHL a) (aAF' a) (aBC' a) (aDE' a) (aHL' a) (aIX a) v (aSP a) (aPC a) (aWZ a) (aI a) (aR a) (aIM a) (aIFF1 a) (aIFF2 a) (aHALT a) (aEI a) (aPX a) (aQ a).
Definition wSP (v : Z) a : arch T := mkArch (aA a) (aF a) (aBC a) (aDE a) (aHL a) (aAF' a) (aBC' a) (aDE' a) (aHL' a) (aIX a) (aIY a) v (aPC a) (aWZ a) (aI a) (aR a) (aIM a) (aIFF1 a) (aIFF2 a) (aHALT a) (aEI a) (aPX a) (aQ a).
Definition wPC (v : Z) a : arch T := mkArch (aA a) (aF a) (aBC a) (aDE a) (aHL a) (aAF' a) (aBC' a) (aDE' a) (aHL' a) (aIX a) (aIY a) (aSP a) v (aWZ a) (aI a) (aR a) (aIM a) (aIFF1 a) (aIFF2 a) (aHALT a) (aEI a) (aPX a) (aQ a).
Definition wWZ (v : Z) a : arch T := mkArch (aA a) (aF a) (aBC a) (aDE a) (aHL a) (aAF' a) (aBC' a) (aDE' a) (aHL' a) (aIX a) (aIY a) (aSP a) (aPC a) v (aI a) (aR a) (aIM a) (aIFF1 a) (aIFF2 a) (aHALT a) (aEI a) (aPX a) (aQ a).
Definition wI (v : Z) a : arch T := mkArch (aA a) (aF a) (aBC a) (aDE a) (aHL a) (aAF' a) (aBC' a) (aDE' a) (aHL' a) (aIX a) (aIY a) (aSP a) (aPC a) (aWZ a) v (aR a) (aIM a) (aIFF1 a) (aIFF2 a) (aHALT a) (aEI a) (aPX a) (aQ a).
Definition wR (v : Z) a : arch T := mkArch (aA a) (aF a) (aBC a) (aDE a) (aHL a) (aAF' a) (aBC' a) (aDE' a) (aHL' a) (aIX a) (aIY a) (aSP a) (aPC a) (aWZ a) (aI a) v (aIM a) (aIFF1 a) (aIFF2 a) (aHALT a) (aEI a) (aPX a) (aQ a).
Definition wIM (v : InterruptMode) a : arch T := mkArch (aA a) (aF a) (aBC a) (aDE a) (aHL a) (aAF' a) (aBC' a) (aDE' a) (aHL' a) (aIX a) (aIY a) (aSP a) (aPC a) (aWZ a) (aI a) (aR a) v (aIFF1 a) (aIFF2 a) (aHALT a) (aEI a) (aPX a) (aQ a).
Definition wIFF1 (v : bool) a : arch T := mkArch (aA a) (aF a) (aBC a) (aDE a) (aHL a) (aAF' a) (aBC' a) (aDE' a) (aHL' a) (aIX a) (aIY a) (aSP a) (aPC a) (aWZ a) (aI a) (aR a) (aIM a) v (aIFF2 a) (aHALT a) (aEI a) (aPX a) (aQ a).
Definition wIFF2 (v : bool) a : arch T := mkArch (aA a) (aF a) (aBC a) (aDE a) (aHL a) (aAF' a) (aBC' a) (aDE' a) (aHL' a) (aIX a) (aIY a) (aSP a) (aPC a) (aWZ a) (aI a) (aR a) (aIM a) (aIFF1 a) v (aHALT a) (aEI a) (aPX a) (aQ a).
Definition wHALT (v : bool) a : arch T := mkArch (aA a) (aF a) (aBC a) (aDE a) (aHL a) (aAF' a) (aBC' a) (aDE' a) (aHL' a) (aIX a) (aIY a) (aSP a) (aPC a) (aWZ a) (aI a) (aR a) (aIM a) (aIFF1 a) (aIFF2 a) v (aEI a) (aPX a) (aQ a).
Definition wEI (v : bool) a : arch T := mkArch (aA a) (aF a) (aBC a) (aDE a) (aHL a) (aAF' a) (aBC' a) (aDE' a) (aHL' a) (aIX a) (aIY a) (aSP a) (aPC a) (aWZ a) (aI a) (aR a) (aIM a) (aIFF1 a) (aIFF2 a) (aHALT a) v (aPX a) (aQ a).
Definition wPX (v : option Prefix) a : arch T := mkArch (aA a) (aF a) (aBC a) (aDE a) (aHL a) (aAF' a) (aBC' a) (aDE' a) (aHL' a) (aIX a) (aIY a) (aSP a) (aPC a) (aWZ a) (aI a) (aR a) (aIM a) (aIFF1 a) (aIFF2 a) (aHALT a) (aEI a) v (aQ a).
Definition wQ (v : T) a : arch T := mkArch (aA a) (aF a) (aBC a) (aDE a) (aHL a) (aAF' a) (aBC' a) (aDE' a) (aHL' a) (aIX a) (aIY a) (aSP a) (aPC a) (aWZ a) (aI a) (aR a) (aIM a) (aIFF1 a) (aIFF2 a) (aHALT a) (aEI a) (aPX a) v.
End Upd.
