(** Every host access follows its own clock call and carries its time stamp. *)
From Coq Require Import ZArith Bool List String Lia.
From Verif Require Import Base Flags Ops Parse Cpu Flavours Prog Trace Internal Instr Exec Decode Sym AluProofs
  Alu16Proofs Range Safe SafeEntry Ewl SpecLog.
Import ListNotations.
Open Scope Z_scope.

Section Stamp.
Context {Q TS WB RB : Type}.
Variable FL : Flavour Q.
Notation M := (M Q TS WB RB).
Notation st := (@st Q).
Notation wpl := (Trace.wpl (TS:=TS) (WB:=WB) (RB:=RB)) (only parsing).

Definition stm (l : list (ev TS WB RB)) : Prop := forall e, stamped e l.
Lemma stamped_app (l : list (ev TS WB RB)) : forall e l', stamped e l -> stm l' -> stamped e (l ++ l').
Proof. induction l as [|x l IH]; intros e l' H H'; cbn in *; [apply H'|]. split; [apply H|]. now apply IH. Qed.
Lemma stm_app l l' : stm l -> stm l' -> stm (l ++ l').
Proof. intros H H' e. now apply stamped_app. Qed.

Section Dbg.
Variable dbg : bool.
Ltac sx := repeat (sx_step ltac:(dbg_any dbg)).
Ltac facts :=
  repeat match goal with
  | |- context [if ?b then _ else _] => is_var b; destruct b
  | E : daa ?a ?f = None |- _ => exfalso; apply (daa_some a f); auto with rng
  end.
Ltac leaf := facts; first [discriminate | intros ?; cbn [app stamped covered]; repeat split ].

Lemma run_none_stamped c s : byte c -> spx s = None -> wfst s ->
  wpm (TS:=TS) (WB:=WB) (RB:=RB) (run_none FL dbg c) s (fun _ _ l => stm l).
Proof.
  intros Hc Hp (Hs & Hff & Hpc). destruct s as [k f p px]; cbn in *. subst px.
  pose proof (none_ok_all c Hc) as HE. unfold run_none. sx.
  all: leaf.
Qed.
Lemma run_pfx_stamped px c s : byte c -> spx s = Some px -> decode_pfx c <> P_IGNORE -> wfst s ->
  wpm (TS:=TS) (WB:=WB) (RB:=RB) (run_pfx FL dbg px c) s (fun s' n l => stm l /\ n <> PRepeat).
Proof.
  intros Hc Hp HI (Hs & Hff & Hpc). destruct s as [k f p px']; cbn in *. subst px'.
  pose proof (pfx_ok_all c Hc) as HE. unfold run_pfx. sx.
  all: first [contradiction | split; [leaf|discriminate]].
Qed.
Lemma exec_code_stamped c s : byte c -> wfst s ->
  wpm (TS:=TS) (WB:=WB) (RB:=RB) (exec_code FL dbg c) s (fun s' _ l => stm l).
Proof.
  intros Hc (Hs & Hff & Hpc). apply wpm_exec.
  - intros _. apply run_none_stamped; [assumption|reflexivity|].
    repeat split; cbn [sc sfl spc]; try apply wf_set_flavour; assumption || apply Hff || apply Hpc.
  - intros px Hp HI. refine (wpl_mono _ _ _ _ (run_pfx_stamped px c (mkSt _ _ _ (Some px)) Hc eq_refl HI _)).
    + intros [s' n] l [Hw Hn]. cbn [fst snd] in *. now destruct n.
    + repeat split; cbn [sc sfl spc]; try apply wf_set_flavour; assumption || apply Hff || apply Hpc.
Qed.
End Dbg.
End Stamp.
