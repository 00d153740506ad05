(** Single instructions never look at the limit, and reach the debugger only when there is one. *)
From Coq Require Import ZArith Bool List String Lia.
From Verif Require Import Base Flags Ops Parse Cpu Flavours Prog Trace Internal Instr Exec Decode Sym AluProofs
  Alu16Proofs Range Safe SafeEntry Ewl SpecLog SpecSlice.
Import ListNotations.
Open Scope Z_scope.

Definition peeks (c : Z) : bool :=
  match decode_none c with M_JR_cc | M_DJNZ => existsb (Z.eqb c) rel_cond | _ => true end.
Lemma peeks_rel c : byte c -> decode_none c = M_JR_cc \/ decode_none c = M_DJNZ -> In c rel_cond.
Proof.
  intros Hc H. assert (E : peeks c = true) by (clear H; revert c Hc; apply (all1_spec peeks); vm_compute; reflexivity).
  unfold peeks in E. destruct H as [H|H]; rewrite H in E; apply existsb_exists in E; destruct E as (x & I & E);
    apply Z.eqb_eq in E; now subst.
Qed.
Section Quiet.
Context {Q TS WB RB : Type}.
Variable FL : Flavour Q.
Notation M := (M Q TS WB RB).
Notation st := (@st Q).
Notation wpl := (Trace.wpl (TS:=TS) (WB:=WB) (RB:=RB)) (only parsing).

Section Dbg.
Variable dbg : bool.
Notation qt P := (Forall (quiet (TS:=TS) (WB:=WB) (RB:=RB) dbg P)).
Ltac sx := repeat (sx_step ltac:(dbg_any dbg)).
Ltac facts :=
  repeat match goal with
  | |- context [if ?b then _ else _] => is_var b; destruct b
  | E : daa ?a ?f = None |- _ => exfalso; apply (daa_some a f); auto with rng
  end.
Ltac leaf := facts; first [discriminate | repeat (apply Forall_nil || apply Forall_cons); cbn [quiet spc]; auto;
  try (split; [apply peeks_rel; auto|reflexivity]) ].

Lemma run_none_quiet c s : byte c -> spx s = None -> wfst s ->
  wpm (TS:=TS) (WB:=WB) (RB:=RB) (run_none FL dbg c) s (fun _ _ l => qt (fun a => In c rel_cond /\ a = spc s) l).
Proof.
  intros Hc Hp (Hs & Hff & Hpc). destruct s as [k f p px]; cbn in *. subst px.
  pose proof (none_ok_all c Hc) as HE. unfold run_none. sx.
  all: leaf.
Qed.
Lemma run_pfx_quiet px c s : byte c -> spx s = Some px -> decode_pfx c <> P_IGNORE -> wfst s ->
  wpm (TS:=TS) (WB:=WB) (RB:=RB) (run_pfx FL dbg px c) s (fun s' n l => qt (fun a => In c rel_cond /\ a = spc s) l /\ n <> PRepeat).
Proof.
  intros Hc Hp HI (Hs & Hff & Hpc). destruct s as [k f p px']; cbn in *. subst px'.
  pose proof (pfx_ok_all c Hc) as HE. unfold run_pfx. sx.
  all: first [contradiction | split; [leaf|discriminate]].
Qed.
Lemma exec_code_quiet c s : byte c -> wfst s ->
  wpm (TS:=TS) (WB:=WB) (RB:=RB) (exec_code FL dbg c) s (fun s' _ l => qt (fun a => In c rel_cond /\ a = spc s) l).
Proof.
  intros Hc (Hs & Hff & Hpc). apply wpm_exec.
  - intros _. refine (run_none_quiet c (mkSt _ _ _ None) Hc eq_refl _).
    repeat split; cbn [sc sfl spc]; try apply wf_set_flavour; assumption || apply Hff || apply Hpc.
  - intros px Hp HI. refine (wpl_mono _ _ _ _ (run_pfx_quiet px c (mkSt _ _ _ (Some px)) Hc eq_refl HI _)).
    + intros [s' n] l [Hw Hn]. cbn [fst snd] in *. now destruct n.
    + repeat split; cbn [sc sfl spc]; try apply wf_set_flavour; assumption || apply Hff || apply Hpc.
Qed.
End Dbg.
End Quiet.
