(** Repeated execution: [n] calls of [execute_next], or the given op-codes through [execute_instruction]. *)
From Coq Require Import ZArith Bool List Lia.
From Verif Require Import Base Flags Ops Parse Cpu Prog Trace Internal Instr Exec SpecIsa IsaLink IsaRun SpecCycles.
Import ListNotations.
Open Scope Z_scope.

Section Steps.
Context {Q TS WB RB : Type}.
Variable FL : Flavour Q.
Fixpoint steps (n : nat) (c : cpu Q) : prog TS WB RB (cpu Q) :=
  match n with
  | O => Ret c
  | S n => pbind (execute_next FL false c) (fun x => steps n (fst x))
  end.
Fixpoint exec_list (l : list Z) (c : cpu Q) : prog TS WB RB (cpu Q) :=
  match l with
  | [] => Ret c
  | x :: l => pbind (execute_instruction FL false x c) (fun y => exec_list l (fst y))
  end.
End Steps.

Lemma buses_app' {TS WB RB} (l1 l2 : list (ev TS WB RB)) : buses (l1 ++ l2) = buses l1 ++ buses l2.
Proof. apply flat_map_app. Qed.
Lemma clocks_app' {TS WB RB} (l1 l2 : list (ev TS WB RB)) : clocks (l1 ++ l2) = clocks l1 ++ clocks l2.
Proof. apply flat_map_app. Qed.
Lemma runl_bind {TS WB RB BS CK A B} (Hs : host TS WB RB BS CK) (p : prog TS WB RB A) (f : A -> prog TS WB RB B) :
  forall b k, runl Hs (pbind p f) b k =
  match runl Hs p b k with
  | Some (x, b', k', l) =>
      match runl Hs (f x) b' k' with Some (y, b2, k2, l2) => Some (y, b2, k2, l ++ l2) | None => None end
  | None => None
  end.
Proof.
  induction p; intros b0 k0; cbn [pbind runl]; cbv zeta;
  repeat match goal with |- context [let (_, _) := ?x in _] => destruct x end;
  first
  [ reflexivity
  | match goal with |- context [runl Hs (f ?a) b0 k0] =>
      destruct (runl Hs (f a) b0 k0) as [[[[? ?] ?] ?]|]; reflexivity end
  | match goal with IH : _ |- _ => rewrite IH end;
    match goal with |- context [match runl Hs ?p ?b ?k with _ => _ end] =>
      destruct (runl Hs p b k) as [[[[? ?] ?] ?]|]; [|reflexivity] end;
    cbn [cons_log];
    match goal with |- context [runl Hs (f ?x) ?b ?k] =>
      destruct (runl Hs (f x) b k) as [[[[? ?] ?] ?]|]; reflexivity end ].
Qed.
Lemma runs_bind {TS WB RB A B} (p : prog TS WB RB A) (f : A -> prog TS WB RB B) P
    (R : B -> list (bev WB RB) -> list tev -> Prop) :
  runs p P ->
  (forall x bl cl, Forall data_byte bl -> P x bl cl ->
     runs (f x) (fun y bl' cl' => R y (bl ++ bl') (cl ++ cl'))) ->
  runs (pbind p f) R.
Proof.
  intros H1 H2 BS CK Hs b k. destruct (H1 BS CK Hs b k) as (x & b1 & k1 & l1 & E1 & D1 & P1).
  destruct (H2 x _ _ D1 P1 BS CK Hs b1 k1) as (y & b2 & k2 & l2 & E2 & D2 & P2).
  exists y, b2, k2, (l1 ++ l2). rewrite runl_bind, E1, E2, buses_app', clocks_app'.
  split; [reflexivity|]. split; [now apply Forall_app|exact P2].
Qed.
Lemma runs_ret {TS WB RB A} (a : A) (P : A -> list (bev WB RB) -> list tev -> Prop) :
  P a [] [] -> runs (TS:=TS) (Ret a) P.
Proof. intros H BS CK Hs b k. exists a, b, k, []. repeat split; [constructor|exact H]. Qed.
Lemma runs_mono {TS WB RB A} (p : prog TS WB RB A) (P R : A -> list (bev WB RB) -> list tev -> Prop) :
  (forall x bl cl, Forall data_byte bl -> P x bl cl -> R x bl cl) -> runs p P -> runs p R.
Proof.
  intros H HP BS CK Hs b k. destruct (HP BS CK Hs b k) as (x & b' & k' & l & E & D & HX).
  exists x, b', k', l. auto.
Qed.
