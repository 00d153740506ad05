(** [Safe]/[SafeEntry]/[Ewl]/[Dbg] restated for concrete runs on an arbitrary host. *)
From Coq Require Import ZArith Bool List Lia.
From Verif Require Import Base Flags Ops Parse Cpu Flavours Prog Trace Internal Instr Exec Range Safe SafeEntry Ewl Dbg.
Import ListNotations.
Open Scope Z_scope.

(** [p] runs to completion on every host, from every state of it, with a result satisfying [P]. *)
Definition completes {TS WB RB A} (p : prog TS WB RB A) (P : A -> Prop) : Prop :=
  forall BS CK (Hs : host TS WB RB BS CK) (b : BS) (k : CK),
  exists a b' k' ds, run Hs p b k = Some (a, b', k', ds) /\ P a.
(** [p] and [q] give the same value and leave bus and clock in the same state, on every host. *)
Definition same_runs {TS WB RB A} (p q : prog TS WB RB A) : Prop :=
  forall BS CK (Hs : host TS WB RB BS CK) (b : BS) (k : CK),
  exists a b' k' ds ds', run Hs p b k = Some (a, b', k', ds) /\ run Hs q b k = Some (a, b', k', ds').

Section Run.
Context {Q TS WB RB : Type}.
Variable FL : Flavour Q.
Variable dbg : bool.
Implicit Types c : cpu Q.
Notation completes := (completes (TS:=TS) (WB:=WB) (RB:=RB)).

Lemma wpl_completes {A} (p : prog TS WB RB A) (P : A -> Prop) : wpl p (fun a _ => P a) -> completes p P.
Proof.
  intros H BS CK Hs b k. destruct (wpl_run Hs p _ b k H) as (a & b' & k' & l & E & HP).
  exists a, b', k', (debugs l). split; [|exact HP]. now rewrite run_runl, E.
Qed.
Lemma wf_reset c : wf (reset FL c).
Proof. constructor; cbn; unfold word, byte; lia. Qed.
Lemma execute_instruction_completes code c : byte code -> wf c ->
  completes (execute_instruction FL dbg code c) (fun x => wf (fst x)).
Proof. intros. apply wpl_completes. now apply execute_instruction_wf. Qed.
Lemma execute_next_completes c : wf c -> completes (execute_next FL dbg c) (fun x => wf (fst x)).
Proof. intros. apply wpl_completes. now apply execute_next_wf. Qed.
Lemma irq_completes c : wf c -> completes (irq FL dbg c) (fun x => wf (fst x)).
Proof. intros. apply wpl_completes. now apply irq_wf. Qed.
Lemma nmi_completes c : wf c -> completes (nmi FL c) (fun x => wf (fst x)).
Proof. intros. apply wpl_completes. now apply nmi_wf. Qed.
Lemma execute_with_limit_completes fuel c : wf c ->
  completes (execute_with_limit FL false fuel c)
    (fun x => match x with Some y => wf (fst y) | None => True end).
Proof.
  intros H. apply wpl_completes. apply (execute_with_limit_wf FL false fuel c H). discriminate.
Qed.
Lemma execute_with_limit_completes_da fuel c : wf c ->
  (halt c = true -> prefix c = None /\ last_ei c = false) ->
  completes (execute_with_limit FL true fuel c)
    (fun x => match x with Some y => wf (fst y) | None => True end).
Proof.
  intros H Hh. apply wpl_completes. apply (execute_with_limit_wf FL true fuel c H).
  intros _ E. destruct (Hh E) as [-> ->]. reflexivity.
Qed.

Lemma dsim_same {A} (p q : prog TS WB RB A) P : dsim p q -> completes p P -> same_runs p q.
Proof.
  intros H HC BS CK Hs b k. destruct (HC _ _ Hs b k) as (a & b' & k' & ds & E & _).
  destruct (dsim_run Hs p q H _ _ _ _ _ _ E) as [ds' E']. eauto 8.
Qed.
End Run.
Section Same.
Context {Q TS WB RB : Type}.
Variable FL : Flavour Q.
Implicit Types c : cpu Q.
Notation same_runs := (same_runs (TS:=TS) (WB:=WB) (RB:=RB)).
Lemma execute_instruction_same code c : byte code -> wf c ->
  same_runs (execute_instruction FL true code c) (execute_instruction FL false code c).
Proof. intros. eapply dsim_same; [apply execute_instruction_sim|now apply execute_instruction_completes]. Qed.
Lemma execute_next_same c : wf c -> same_runs (execute_next FL true c) (execute_next FL false c).
Proof. intros. eapply dsim_same; [apply execute_next_sim|now apply execute_next_completes]. Qed.
Lemma irq_same c : wf c -> same_runs (irq FL true c) (irq FL false c).
Proof. intros. eapply dsim_same; [apply irq_sim|now apply irq_completes]. Qed.
End Same.
