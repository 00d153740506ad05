(** [Quiet.v] for the entry points. *)
From Coq Require Import ZArith Bool List String Lia.
From Verif Require Import Base Flags Ops Parse Cpu Flavours Prog Trace Internal Instr Exec Decode Sym
  Range Safe SafeEntry Ewl SpecLog SpecSlice Quiet.
Import ListNotations.
Open Scope Z_scope.

Section Quiet.
Context {Q TS WB RB : Type}.
Variable FL : Flavour Q.
Implicit Types c : cpu Q.
Notation st := (@st Q).
Notation wpl := (Trace.wpl (TS:=TS) (WB:=WB) (RB:=RB)) (only parsing).
Section Dbg.
Variable dbg : bool.
Notation qt := (Forall (quiet (TS:=TS) (WB:=WB) (RB:=RB) dbg (fun _ => True))).

Lemma Forall_app_2 {X} (P : X -> Prop) l l' : Forall P l -> Forall P l' -> Forall P (l ++ l').
Proof. intros. apply Forall_app. now split. Qed.
(** ** Entry points *)
Notation good P := (fun x l => qt l /\ P x).
Lemma wpl_qt_bind {A B} (p : prog TS WB RB A) (k : A -> prog TS WB RB B) (P : A -> Prop) (R : B -> Prop) :
  wpl p (good P) -> (forall x, P x -> wpl (k x) (good R)) -> wpl (pbind p k) (good R).
Proof.
  intros H1 H2. apply wpl_bind. refine (wpl_mono _ _ _ _ H1). intros x l [Hl Hx].
  refine (wpl_mono _ _ _ _ (H2 x Hx)). intros y l' [Hl' Hy]. split; [now apply Forall_app_2|exact Hy].
Qed.
Lemma wpl_qt_pre {B} (k : prog TS WB RB B) (R : B -> Prop) l :
  qt l -> wpl k (good R) -> wpl k (fun x l' => qt (l ++ l') /\ R x).
Proof. intros Hl. apply wpl_mono. intros a l' [H1 H2]. split; [now apply Forall_app_2|exact H2]. Qed.
Ltac st := repeat constructor.

Lemma execute_instruction_peek code c : byte code -> wf c ->
  wpl (execute_instruction FL dbg code c) (fun _ l =>
    Forall (quiet (TS:=TS) (WB:=WB) (RB:=RB) dbg (fun a => In code rel_cond /\ a = pc c)) l).
Proof.
  intros Hc Hw. unfold execute_instruction. apply wpl_bind.
  refine (wpl_mono _ _ _ _ (exec_code_quiet FL dbg code _ Hc _)); [|apply wf_load; auto with rng].
  intros [s' x] l H. cbn. rewrite app_nil_r. exact H.
Qed.
Lemma quiet_any P l : Forall (quiet (TS:=TS) (WB:=WB) (RB:=RB) dbg P) l -> qt l.
Proof. apply Forall_impl. intros []; auto. exact (fun _ => I). Qed.
Lemma execute_instruction_qt code c : byte code -> wf c ->
  wpl (execute_instruction FL dbg code c) (good (fun x => wf (fst x))).
Proof.
  intros Hc Hw. unfold execute_instruction. apply wpl_qt_bind with (P := fun x => wfst (fst x)).
  - apply wpl_and; [refine (wpl_mono _ _ _ _ (exec_code_quiet FL dbg code _ Hc _)); [intros ? ?; apply quiet_any|]|apply (exec_code_wf FL dbg code _ Hc)];
      apply wf_load; auto with rng.
  - intros [s' x] H. split; [st|]. now apply wf_store.
Qed.
Lemma push16_qt v c : word v -> wf c -> wpl (on_cpu (push16 v) c) (good (fun x => wf (fst x))).
Proof. intros Hv Hw. apply wpl_and; [|now apply push16_wf]. unfold on_cpu, push16, push2. cbn [pbind]. cbn. intros. st. Qed.
Lemma fetch_qt c : wf c -> wpl (on_cpu (fetch_next_opcode (pc c)) c)
    (good (fun x => wf (fst x) /\ word (fst (snd x)) /\ byte (snd (snd x)))).
Proof. intros Hw. apply wpl_and; [|now apply fetch_wf]. unfold on_cpu, fetch_next_opcode. cbn. intros. st. Qed.
Lemma irq_no_check_qt c : wf c -> wpl (irq_no_check FL dbg c) (good (fun x => wf (fst x))).
Proof.
  intros Hw. unfold irq_no_check.
  assert (E : exists c' p, (if halt (inc_r (disable_interrupts c))
       then (set_pc (u16 (pc (inc_r (disable_interrupts c)) + 1)) (set_halt false (inc_r (disable_interrupts c))),
             u16 (pc (inc_r (disable_interrupts c)) + 1))
       else (inc_r (disable_interrupts c), pc (inc_r (disable_interrupts c)))) = (c', p) /\ wf c' /\ word p).
  { destruct (halt (inc_r (disable_interrupts c))); eexists _, _; (split; [reflexivity|]);
      split; auto 6 with rng. }
  destruct E as (c' & p & E & Hw' & Hp). cbv zeta. rewrite E. cbn [Trace.wpl]. intros t v w Hv.
  assert (G : wpl
    match im c' with
    | Mode0 => execute_instruction FL dbg v c'
    | Mode1 => execute_instruction FL dbg RST_38H_OPCODE c'
    | Mode2 => AddNoMreq (get_ir c') 1
        (pbind (on_cpu (push16 p) c') (fun x =>
         execute_instruction FL dbg JP_OPCODE (set_pc (Z.lor (Z.land (get_ir c') 0xFF00) v) (fst x))))
    end (good (fun x => wf (fst x)))).
  { destruct (im c').
    - now apply execute_instruction_qt.
    - apply execute_instruction_qt; [unfold byte, RST_38H_OPCODE; lia|assumption].
    - cbn [Trace.wpl]. apply (wpl_qt_pre _ _ [KNoMreq (get_ir c') 1]); [st|].
      apply (wpl_qt_bind _ _ _ _ (push16_qt _ _ Hp Hw')).
      intros [c2 u] H. apply execute_instruction_qt; [unfold byte, JP_OPCODE; lia|].
      apply wf_set_pc; [|exact H]. apply lor_word.
      + apply land_word_r. unfold word; lia.
      + now apply byte_word. }
  destruct w as [n|]; cbn [Trace.wpl].
  - apply (wpl_qt_pre _ _ [KIrq p t; EIrqData p t v (Some n); KWait p n]); [st|exact G].
  - apply (wpl_qt_pre _ _ [KIrq p t; EIrqData p t v None]); [st|exact G].
Qed.
Lemma irq_qt c : wf c -> wpl (irq FL dbg c) (good (fun x => wf (fst x))).
Proof.
  intros Hw. unfold irq. destruct (is_irq_allowed c); [|split; [st|exact Hw]].
  apply (wpl_qt_bind _ _ _ _ (irq_no_check_qt _ Hw)). intros [c2 u] H. split; [st|exact H].
Qed.
Lemma nmi_no_check_qt c : wf c -> wpl (nmi_no_check FL c) (fun x l => qt l /\ wf x).
Proof.
  intros Hw. apply wpl_and; [|now apply nmi_no_check_wf]. unfold nmi_no_check. cbv zeta.
  destruct (halt _); unfold on_cpu, push16, push2; cbn; intros; st.
Qed.
Lemma nmi_qt c : wf c -> wpl (nmi FL c) (good (fun x => wf (fst x))).
Proof.
  intros Hw. unfold nmi. destruct (is_int_allowed _ _); [|split; [st|exact Hw]].
  apply (wpl_qt_bind _ _ _ _ (nmi_no_check_qt _ Hw)). intros c2 H. split; [st|exact H].
Qed.
Lemma execute_next_qt c : wf c -> wpl (execute_next FL dbg c) (good (fun x => wf (fst x))).
Proof.
  intros Hw. unfold execute_next.
  assert (G : forall q : bool, wpl
    (if q then irq_no_check FL dbg c
     else if halt c then AddM1 (pc c) (fun _ => Ret (inc_r c, None))
     else pbind (on_cpu (fetch_next_opcode (pc c)) c) (fun x =>
       execute_instruction FL dbg (snd (snd x)) (set_pc (fst (snd x)) (fst x)))) (good (fun x => wf (fst x)))).
  { intros []; [now apply irq_no_check_qt|].
    destruct (halt c); [cbn; intros; split; [st|auto with rng]|].
    apply (wpl_qt_bind _ _ _ _ (fetch_qt _ Hw)).
    intros [c2 [p o]] (H1 & H2 & H3). cbn [fst snd] in *.
    apply execute_instruction_qt; auto with rng. }
  unfold test_irq. destruct (is_irq_allowed c); [|apply (G false)].
  cbn [Trace.wpl]. intros t q. apply (wpl_qt_pre _ _ [KTs t; EIsIrq t q]); [st|apply G].
Qed.
End Dbg.

End Quiet.
