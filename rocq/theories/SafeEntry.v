(** No entry point gets stuck, and every register stays in range: lifting [Safe.v]. *)
From Coq Require Import ZArith Bool List String Lia.
From Verif Require Import Base Flags Ops Parse Cpu Flavours Prog Trace Internal Instr Exec Decode Sym Range Safe.
Import ListNotations.
Open Scope Z_scope.

Section Entry.
Context {Q TS WB RB : Type}.
Variable FL : Flavour Q.
Variable dbg : bool.
Implicit Types c : cpu Q.

Lemma wf_load c : wf c -> wfst (load_st c).
Proof. intros H. split; [exact H|]. split; [apply wf_get_flags|exact (wf_pc _ H)]. Qed.
Lemma wf_store (s : @st Q) : wfst s -> wf (store_st s).
Proof. intros (H1 & H2 & H3). unfold store_st. auto with rng. Qed.
Notation P_wf := (fun x _ => wf (fst x : cpu Q)).
Lemma execute_instruction_wf code c : byte code -> wf c ->
  wpl (TS:=TS) (WB:=WB) (RB:=RB) (execute_instruction FL dbg code c) P_wf.
Proof.
  intros Hc Hw. unfold execute_instruction. apply wpl_bind.
  refine (wpl_mono _ _ _ _ (exec_code_wf FL dbg code (load_st (set_halt false (set_last_ei false c))) Hc (wf_load _ _))).
  - intros [s' x] l H. cbn [wpl fst snd] in *. now apply wf_store.
  - auto with rng.
Qed.
Lemma push16_wf v c : word v -> wf c ->
  wpl (TS:=TS) (WB:=WB) (RB:=RB) (on_cpu (push16 v) c) P_wf.
Proof. intros Hv Hw. unfold on_cpu, push16, push2. cbn. intros. auto with rng. Qed.
Lemma fetch_wf c : wf c ->
  wpl (TS:=TS) (WB:=WB) (RB:=RB) (on_cpu (fetch_next_opcode (pc c)) c)
    (fun x _ => wf (fst x) /\ word (fst (snd x)) /\ byte (snd (snd x))).
Proof. intros Hw. unfold on_cpu, fetch_next_opcode. cbn. intros. auto 6 with rng. Qed.
Lemma irq_no_check_wf c : wf c ->
  wpl (TS:=TS) (WB:=WB) (RB:=RB) (irq_no_check FL dbg c) P_wf.
Proof.
  intros Hw. unfold irq_no_check.
  assert (E : exists c' p, (if halt (inc_r (disable_interrupts c))
       then (set_pc (u16 (pc (inc_r (disable_interrupts c)) + 1)) (set_halt false (inc_r (disable_interrupts c))),
             u16 (pc (inc_r (disable_interrupts c)) + 1))
       else (inc_r (disable_interrupts c), pc (inc_r (disable_interrupts c)))) = (c', p) /\ wf c' /\ word p).
  { destruct (halt (inc_r (disable_interrupts c))); eexists _, _; (split; [reflexivity|]);
      split; auto 6 with rng. }
  destruct E as (c' & p & E & Hw' & Hp). cbv zeta. rewrite E. cbn [wpl]. intros t v w Hv.
  assert (G : wpl (TS:=TS) (WB:=WB) (RB:=RB)
    match im c' with
    | Mode0 => execute_instruction FL dbg v c'
    | Mode1 => execute_instruction FL dbg RST_38H_OPCODE c'
    | Mode2 => AddNoMreq (get_ir c') 1
        (pbind (on_cpu (push16 p) c') (fun x =>
         execute_instruction FL dbg JP_OPCODE (set_pc (Z.lor (Z.land (get_ir c') 0xFF00) v) (fst x))))
    end P_wf).
  { destruct (im c').
    - now apply execute_instruction_wf.
    - apply execute_instruction_wf; [unfold byte, RST_38H_OPCODE; lia|assumption].
    - cbn [wpl]. apply wpl_bind. refine (wpl_mono _ _ _ _ (push16_wf _ _ Hp Hw')).
      intros [c2 u] l H. apply execute_instruction_wf; [unfold byte, JP_OPCODE; lia|].
      apply wf_set_pc; [|exact H]. apply lor_word.
      + apply land_word_r. unfold word; lia.
      + now apply byte_word. }
  destruct w; cbn [wpl]; exact G.
Qed.
Lemma nmi_no_check_wf c : wf c ->
  wpl (TS:=TS) (WB:=WB) (RB:=RB) (nmi_no_check FL c) (fun x _ => wf x).
Proof.
  intros Hw. unfold nmi_no_check. cbv zeta.
  destruct (halt _); cbn [wpl]; intros t; apply wpl_bind;
    (refine (wpl_mono _ _ _ _ (push16_wf _ _ _ _)); [|auto 8 with rng|auto 8 with rng]);
    intros [c2 u] l H; cbn [wpl fst] in *; apply wf_set_pc; auto with rng; unfold word, NMI_RESTART; lia.
Qed.
Lemma irq_wf c : wf c -> wpl (TS:=TS) (WB:=WB) (RB:=RB) (irq FL dbg c) P_wf.
Proof.
  intros Hw. unfold irq. destruct (is_irq_allowed c); [|exact Hw].
  apply wpl_bind. refine (wpl_mono _ _ _ _ (irq_no_check_wf _ Hw)). intros [c2 u] l H. exact H.
Qed.
Lemma nmi_wf c : wf c -> wpl (TS:=TS) (WB:=WB) (RB:=RB) (nmi FL c) P_wf.
Proof.
  intros Hw. unfold nmi. destruct (is_int_allowed _ _); [|exact Hw].
  apply wpl_bind. refine (wpl_mono _ _ _ _ (nmi_no_check_wf _ Hw)). intros c2 l H. exact H.
Qed.
Lemma wpl_test_irq {A} b (k : bool -> prog TS WB RB A) (P : A -> Prop) :
  (forall q, wpl (k q) (fun y _ => P y)) -> wpl (test_irq b k) (fun y _ => P y).
Proof. intros H. unfold test_irq. destruct b; cbn [wpl]; auto. Qed.
Lemma execute_next_wf c : wf c -> wpl (TS:=TS) (WB:=WB) (RB:=RB) (execute_next FL dbg c) P_wf.
Proof.
  intros Hw. unfold execute_next. apply (wpl_test_irq _ _ (fun x => wf (fst x))). intros [].
  - now apply irq_no_check_wf.
  - destruct (halt c); [cbn; intros; auto with rng|].
    apply wpl_bind. refine (wpl_mono _ _ _ _ (fetch_wf _ Hw)).
    intros [c2 [p o]] l (H1 & H2 & H3). cbn [fst snd] in *.
    apply execute_instruction_wf; auto with rng.
Qed.
End Entry.
