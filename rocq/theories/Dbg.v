(** The debugger does not influence execution: the tree with a debugger is the tree without one plus
    [Debug] nodes. *)
From Coq Require Import ZArith Bool List String Lia.
From Verif Require Import Base Flags Ops Parse Cpu Flavours Prog Trace Internal Instr Exec.
Import ListNotations.
Open Scope Z_scope.

Section Sim.
Context {TS WB RB : Type}.
Notation prog := (prog TS WB RB).

Inductive dsim {A} : prog A -> prog A -> Prop :=
| d_ret a : dsim (Ret a) (Ret a)
| d_stuck q : dsim Stuck q
| d_debug d p q : dsim p q -> dsim (Debug d p) q
| d_both d p q : dsim p q -> dsim (Debug d p) (Debug d q)
| d_past k k' : (forall x, dsim (k x) (k' x)) -> dsim (IsPastLimit k) (IsPastLimit k')
| d_irq a k k' : (forall x, dsim (k x) (k' x)) -> dsim (AddIrq a k) (AddIrq a k')
| d_nomreq a n k k' : dsim k k' -> dsim (AddNoMreq a n k) (AddNoMreq a n k')
| d_m1 a k k' : (forall x, dsim (k x) (k' x)) -> dsim (AddM1 a k) (AddM1 a k')
| d_mreq a k k' : (forall x, dsim (k x) (k' x)) -> dsim (AddMreq a k) (AddMreq a k')
| d_io a k k' : (forall x, dsim (k x) (k' x)) -> dsim (AddIo a k) (AddIo a k')
| d_wait a n k k' : dsim k k' -> dsim (AddWait a n k) (AddWait a n k')
| d_ts k k' : (forall x, dsim (k x) (k' x)) -> dsim (AsTs k) (AsTs k')
| d_rio a t k k' : (forall x y, dsim (k x y) (k' x y)) -> dsim (ReadIo a t k) (ReadIo a t k')
| d_wio a v t k k' : (forall x y, dsim (k x y) (k' x y)) -> dsim (WriteIo a v t k) (WriteIo a v t k')
| d_isirq t k k' : (forall x, dsim (k x) (k' x)) -> dsim (IsIrq t k) (IsIrq t k')
| d_irqdata a t k k' : (forall x y, dsim (k x y) (k' x y)) -> dsim (IrqData a t k) (IrqData a t k')
| d_reti a t k k' : (forall x, dsim (k x) (k' x)) -> dsim (Reti a t k) (Reti a t k')
| d_rd a t k k' : (forall x, dsim (k x) (k' x)) -> dsim (ReadMem a t k) (ReadMem a t k')
| d_rd16 a t k k' : (forall x, dsim (k x) (k' x)) -> dsim (ReadMem16 a t k) (ReadMem16 a t k')
| d_op a i t k k' : (forall x, dsim (k x) (k' x)) -> dsim (ReadOpcode a i t k) (ReadOpcode a i t k')
| d_wr a v t k k' : dsim k k' -> dsim (WriteMem a v t k) (WriteMem a v t k')
| d_rdd a k k' : (forall x, dsim (k x) (k' x)) -> dsim (ReadDebug a k) (ReadDebug a k').

Lemma dsim_refl {A} (p : prog A) : dsim p p.
Proof. induction p; try (apply d_both; exact IHp); constructor; auto. Qed.
Lemma dsim_bind {A B} (p q : prog A) (f g : A -> prog B) :
  dsim p q -> (forall a, dsim (f a) (g a)) -> dsim (pbind p f) (pbind q g).
Proof. intros H Hf. induction H; cbn [pbind]; try (apply d_both; exact IHdsim); try constructor; auto. Qed.

Definition isdebug (e : ev TS WB RB) : bool := match e with EDebug _ => true | _ => false end.
Definition nodebug (l : list (ev TS WB RB)) : list (ev TS WB RB) := filter (fun e => negb (isdebug e)) l.

(** The execution with a debugger gives the same result, bus and clock. *)
Lemma dsim_run {BS CK A} (Hs : host TS WB RB BS CK) (p q : prog A) : dsim p q -> forall b c a b' c' ds,
  run Hs p b c = Some (a, b', c', ds) -> exists ds', run Hs q b c = Some (a, b', c', ds').
Proof.
  intros H. induction H; intros b0 c0 a0 b1 c1 l0 E; cbn [run] in *; cbv zeta in *; eauto.
  all: try discriminate.
  all: try (destruct (run Hs p b0 c0) as [[[[? ?] ?] ?]|] eqn:R; [|discriminate];
            injection E as <- <- <- <-; destruct (IHdsim _ _ _ _ _ _ R) as [ds' ->]; eauto).
  all: match goal with |- context [let (_, _) := ?x in _] => destruct x end; eauto.
Qed.

(** Transport of the calculus. *)
Lemma dsim_wpl {A} (p q : prog A) : dsim p q -> forall P : A -> list (ev TS WB RB) -> Prop,
  wpl p (fun _ _ => True) -> wpl q (fun a l => P a (nodebug l)) -> wpl p (fun a l => P a (nodebug l)).
Proof.
  intros H. induction H; intros P HT HP; cbn [wpl nodebug isdebug filter negb] in *; auto.
  all: intros; match goal with
    | IH : forall P, _ -> _ -> wpl ?k _ |- wpl ?k _ => refine (IH (fun a l => P a (_ :: l)) HT HP)
    | IH : forall x P, _ -> _ -> wpl (?k x) _ |- wpl (?k ?x) _ =>
        first [refine (IH x (fun a l => P a (_ :: l)) (HT x) (HP x)) | refine (IH x (fun a l => P a (_ :: l)) (HT x _) (HP x _)); assumption]
    | IH : forall x y P, _ -> _ -> wpl (?k x y) _ |- wpl (?k ?x ?y) _ =>
        first [refine (IH x y (fun a l => P a (_ :: l)) (HT x y) (HP x y)) | refine (IH x y (fun a l => P a (_ :: l)) (HT x y _) (HP x y _)); assumption]
    end.
Qed.
End Sim.

Section Instr.
Context {Q TS WB RB : Type}.
Variable FL : Flavour Q.
Notation M := (M Q TS WB RB).

Definition msim {A} (m m' : M A) : Prop := forall s, dsim (m s) (m' s).
Lemma msim_refl {A} (m : M A) : msim m m.
Proof. intros s. apply dsim_refl. Qed.
Lemma msim_bind {A B} (m m' : M A) (f f' : A -> M B) :
  msim m m' -> (forall a, msim (f a) (f' a)) -> msim (mbind m f) (mbind m' f').
Proof. intros H1 H2 s. unfold mbind. apply dsim_bind; [apply H1|]. intros x. apply H2. Qed.
Lemma msim_debug bytes mn args : msim (cpu_debug true bytes mn args) (cpu_debug false bytes mn args).
Proof.
  intros s. unfold cpu_debug. destruct (args (spx s)); [|constructor].
  destruct (_ <=? _)%nat; repeat constructor.
Qed.
Ltac ms := repeat match goal with
  | |- msim (mbind _ _) (mbind _ _) => apply msim_bind; [|intros ?]
  | |- msim (cpu_debug true _ _ _) _ => apply msim_debug
  | |- msim (cpu_debug_op8 true _ ?op _) _ => destruct op; apply msim_debug
  | |- msim (cpu_debug_bitops true _ ?o) _ => destruct o; apply msim_debug
  | |- msim (cpu_debug_bitops_ii true _ ?o _) _ => destruct o; apply msim_debug
  | |- msim ?m ?m => apply msim_refl
  | |- msim (instr_acc_op _ true _ _ _) _ => unfold instr_acc_op
  | |- msim (match ?x with _ => _ end) _ => destruct x
  end.
Lemma run_ed_sim c : msim (run_ed FL true c) (run_ed FL false c).
Proof. unfold run_ed. ms. Qed.
Lemma run_none_sim c : msim (run_none FL true c) (run_none FL false c).
Proof. unfold run_none. ms. all: apply run_ed_sim. Qed.
Lemma run_pfx_sim px c : msim (run_pfx FL true px c) (run_pfx FL false px c).
Proof. unfold run_pfx. ms. Qed.
Lemma exec_code_sim c : msim (exec_code FL true c) (exec_code FL false c).
Proof. unfold exec_code. ms. all: try apply run_none_sim. apply run_pfx_sim. Qed.

Notation dsim := (dsim (TS:=TS) (WB:=WB) (RB:=RB)).
Lemma execute_instruction_sim code (c : cpu Q) :
  dsim (execute_instruction FL true code c) (execute_instruction FL false code c).
Proof. unfold execute_instruction. apply dsim_bind; [apply exec_code_sim|]. intros. apply dsim_refl. Qed.
Lemma irq_no_check_sim (c : cpu Q) : dsim (irq_no_check FL true c) (irq_no_check FL false c).
Proof.
  unfold irq_no_check. cbv zeta. destruct (if halt _ then _ else _) as [c' p].
  constructor. intros t. constructor. intros v w.
  assert (G : dsim
    match im c' with
    | Mode0 => execute_instruction FL true v c'
    | Mode1 => execute_instruction FL true RST_38H_OPCODE c'
    | Mode2 => AddNoMreq (get_ir c') 1
        (pbind (on_cpu (push16 p) c') (fun x =>
         execute_instruction FL true JP_OPCODE (set_pc (Z.lor (Z.land (get_ir c') 0xFF00) v) (fst x))))
    end
    match im c' with
    | Mode0 => execute_instruction FL false v c'
    | Mode1 => execute_instruction FL false RST_38H_OPCODE c'
    | Mode2 => AddNoMreq (get_ir c') 1
        (pbind (on_cpu (push16 p) c') (fun x =>
         execute_instruction FL false JP_OPCODE (set_pc (Z.lor (Z.land (get_ir c') 0xFF00) v) (fst x))))
    end).
  { destruct (im c'); try apply execute_instruction_sim. constructor.
    apply dsim_bind; [apply dsim_refl|]. intros. apply execute_instruction_sim. }
  destruct w; [constructor|]; exact G.
Qed.
Lemma irq_sim (c : cpu Q) : dsim (irq FL true c) (irq FL false c).
Proof.
  unfold irq. destruct (is_irq_allowed c); [|apply dsim_refl].
  apply dsim_bind; [apply irq_no_check_sim|]. intros. apply dsim_refl.
Qed.
Lemma execute_next_sim (c : cpu Q) : dsim (execute_next FL true c) (execute_next FL false c).
Proof.
  unfold execute_next.
  assert (G : forall q : bool, dsim
    (if q then irq_no_check FL true c
     else if halt c then AddM1 (pc c) (fun _ => Ret (inc_r c, None))
     else pbind (on_cpu (fetch_next_opcode (pc c)) c) (fun x =>
       execute_instruction FL true (snd (snd x)) (set_pc (fst (snd x)) (fst x))))
    (if q then irq_no_check FL false c
     else if halt c then AddM1 (pc c) (fun _ => Ret (inc_r c, None))
     else pbind (on_cpu (fetch_next_opcode (pc c)) c) (fun x =>
       execute_instruction FL false (snd (snd x)) (set_pc (fst (snd x)) (fst x))))).
  { intros []; [apply irq_no_check_sim|]. destruct (halt c); [apply dsim_refl|].
    apply dsim_bind; [apply dsim_refl|]. intros. apply execute_instruction_sim. }
  unfold test_irq. destruct (is_irq_allowed c); [|apply (G false)].
  constructor. intros t. constructor. exact G.
Qed.
End Instr.
