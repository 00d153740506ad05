(** No instruction gets stuck, and every register stays in the range of its Rust type. *)
From Coq Require Import ZArith Bool List String Lia.
From Verif Require Import Base Flags Ops Parse Cpu Flavours Prog Trace Internal Instr Exec Decode Sym AluProofs Alu16Proofs Range.
Import ListNotations.
Open Scope Z_scope.

Section Safe.
Context {Q TS WB RB : Type}.
Variable FL : Flavour Q.
Variable dbg : bool.
Notation M := (M Q TS WB RB).
Notation st := (@st Q).

Definition wfst (s : st) : Prop := wf (sc s) /\ byte (sfl s) /\ word (spc s).

Ltac facts :=
  repeat match goal with
  | |- context [if ?b then _ else _] => is_var b; destruct b
  | E : bitops_from _ = _ |- _ => apply bitops_num_eq in E; cbn [bitnum_of] in E
  | E : daa ?a ?f = Some ?x |- _ =>
      assert (bytes2 x) by (apply (rg_daa a f); auto with rng); clear E
  | E : daa ?a ?f = None |- _ => exfalso; apply (daa_some a f); auto with rng
  end.
Ltac leaf := facts; first [discriminate | exact I | split; [|split]; cbn [fst snd sc sfl spc spx]; eauto 12 with rng ].
Ltac sx := repeat (sx_step ltac:(dbg_any dbg)).


Lemma run_none_wf c s : byte c -> spx s = None -> wfst s ->
  wpm (TS:=TS) (WB:=WB) (RB:=RB) (run_none FL dbg c) s (fun s' _ _ => wfst s').
Proof.
  intros Hc Hp (Hs & Hff & Hpc). destruct s as [k f p px]; cbn in *. subst px.
  pose proof (none_ok_all c Hc) as HE. unfold run_none. sx.
  all: leaf.
Qed.
Lemma run_pfx_wf px c s : byte c -> spx s = Some px -> decode_pfx c <> P_IGNORE -> wfst s ->
  wpm (TS:=TS) (WB:=WB) (RB:=RB) (run_pfx FL dbg px c) s (fun s' n _ => wfst s' /\ n <> PRepeat).
Proof.
  intros Hc Hp HI (Hs & Hff & Hpc). destruct s as [k f p px']; cbn in *. subst px'.
  pose proof (pfx_ok_all c Hc) as HE. unfold run_pfx. sx.
  all: first [contradiction | split; [leaf|discriminate]].
Qed.
Lemma exec_code_wf c s : byte c -> wfst s ->
  wpm (TS:=TS) (WB:=WB) (RB:=RB) (exec_code FL dbg c) s (fun s' _ _ => wfst s').
Proof.
  intros Hc (Hs & Hff & Hpc). apply wpm_exec.
  - intros _. apply run_none_wf; [assumption|reflexivity|].
    repeat split; cbn [sc sfl spc]; try apply wf_set_flavour; assumption || apply Hff || apply Hpc.
  - intros px Hp HI. refine (wpl_mono _ _ _ _ (run_pfx_wf px c (mkSt _ _ _ (Some px)) Hc eq_refl HI _)).
    + intros [s' n] l [Hw Hn]. cbn [fst snd] in *. now destruct n.
    + repeat split; cbn [sc sfl spc]; try apply wf_set_flavour; assumption || apply Hff || apply Hpc.
Qed.
End Safe.
