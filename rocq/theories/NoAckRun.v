(** [execute_with_limit] acknowledges an interrupt only when it has just seen the line active. *)
From Coq Require Import ZArith Bool List Lia.
From Verif Require Import Base Flags Ops Parse Cpu Flavours Prog Trace Internal Instr Exec Decode Sym
  Range Safe SafeEntry Ewl SpecLog StampRun Reach NoAck.
Import ListNotations.
Open Scope Z_scope.

(** Told from the front: [s] is 1 after the line was seen active, 2 after the clock was told about the acknowledge then. *)
Definition seen {TS WB RB} (s : Z) (e : ev TS WB RB) : Z :=
  match e with EIsIrq _ true => 1 | KIrq _ _ => if s =? 1 then 2 else 0 | _ => 0 end.
Fixpoint acked {TS WB RB} (s : Z) (l : list (ev TS WB RB)) : Prop :=
  match l with [] => True | e :: l => match e with EIrqData _ _ _ _ => s = 2 | _ => True end /\ acked (seen s e) l end.
Lemma acked_mono {TS WB RB} (l : list (ev TS WB RB)) s : acked 0 l -> acked s l.
Proof.
  revert s. induction l as [|e l IH]; intros s H; [exact I|]. destruct H as [H1 H2]. split; [destruct e; auto; discriminate H1|].
  destruct e; cbn [seen] in *; auto.
Qed.
Lemma acked_free {TS WB RB} (l l' : list (ev TS WB RB)) s : Forall not_ack l -> acked 0 l' -> acked s (l ++ l').
Proof.
  revert s. induction l as [|e l IH]; intros s F H; [now apply acked_mono|]. inversion F as [|? ? F1 F2]; subst. cbn [app acked].
  split; [now destruct e|]. now apply IH.
Qed.
Lemma acked_none {TS WB RB} (l : list (ev TS WB RB)) s : Forall not_ack l -> acked s l.
Proof. intros F. rewrite <- (app_nil_r l). now apply acked_free. Qed.

Section N.
Context {Q TS WB RB : Type}.
Variable FL : Flavour Q.
Implicit Types c : cpu Q.
Notation st := (@st Q).
Notation wpl := (Trace.wpl (TS:=TS) (WB:=WB) (RB:=RB)) (only parsing).
Notation log := (list (ev TS WB RB)).
Notation qt := (Forall (not_ack (TS:=TS) (WB:=WB) (RB:=RB))).
Notation good P := (fun x l => qt l /\ P x).
Lemma wpl_na_bind {A B} (p : prog TS WB RB A) (k : A -> prog TS WB RB B) (P : A -> Prop) (R : B -> Prop) :
  wpl p (good P) -> (forall x, P x -> wpl (k x) (good R)) -> wpl (pbind p k) (good R).
Proof.
  intros H1 H2. apply wpl_bind. refine (wpl_mono _ _ _ _ H1). intros x l [Hl Hx].
  refine (wpl_mono _ _ _ _ (H2 x Hx)). intros y l' [Hl' Hy]. split; [now apply Forall_app|exact Hy].
Qed.
Lemma wpl_na_pre {B} (k : prog TS WB RB B) (R : B -> Prop) l : qt l -> wpl k (good R) -> wpl k (fun x l' => qt (l ++ l') /\ R x).
Proof. intros Hl. apply wpl_mono. intros a l' [H1 H2]. split; [now apply Forall_app|exact H2]. Qed.
Ltac st := repeat constructor.
Lemma execute_instruction_na dbg code c : byte code -> wf c -> wpl (execute_instruction FL dbg code c) (good (fun x => wf (fst x))).
Proof.
  intros Hc Hw. unfold execute_instruction. apply wpl_na_bind with (P := fun x => wfst (fst x)).
  - apply wpl_and; [apply (exec_code_na FL dbg code _ Hc)|apply (exec_code_wf FL dbg code _ Hc)]; apply wf_load; auto with rng.
  - intros [s' x] H. split; [st|]. now apply wf_store.
Qed.
Lemma push16_na v c : word v -> wf c -> wpl (on_cpu (push16 v) c) (good (fun x => wf (fst x))).
Proof. intros Hv Hw. apply wpl_and; [|now apply push16_wf]. unfold on_cpu, push16, push2. cbn [pbind]. cbn. intros. st. Qed.
Lemma loop_instr_na (s : st) : wfst s -> wpl (loop_instr FL s) (fun x l => qt l).
Proof.
  intros (H1 & H2 & H3). unfold loop_instr. apply wpl_bind. unfold fetch_next_opcode. cbn. intros t v Hv.
  refine (wpl_mono _ _ _ _ (exec_code_na FL false v (mkSt _ _ _ _) Hv _)).
  - intros a l H. constructor; [exact I|]. constructor; [exact I|exact H].
  - split; [|split]; cbn [sc sfl spc]; [change (wf (inc_r (sc s)))| |]; auto with rng.
Qed.
Lemma nmi_na c : wf c -> wpl (nmi FL c) (fun x l => qt l).
Proof.
  intros Hw. unfold nmi. destruct (is_int_allowed _ _); [|st]. apply wpl_bind. unfold nmi_no_check. cbv zeta.
  destruct (halt _); unfold on_cpu, push16, push2; cbn; intros; st.
Qed.
Lemma irq_no_check_na dbg c : wf c -> wpl (irq_no_check FL dbg c) (fun x l => wf (fst x) /\
  exists p t v w l', l = KIrq p t :: EIrqData p t v w :: l' /\ qt l').
Proof.
  intros Hw. unfold irq_no_check.
  assert (E : exists c' p, (if halt (inc_r (disable_interrupts c))
       then (set_pc (u16 (pc (inc_r (disable_interrupts c)) + 1)) (set_halt false (inc_r (disable_interrupts c))),
             u16 (pc (inc_r (disable_interrupts c)) + 1))
       else (inc_r (disable_interrupts c), pc (inc_r (disable_interrupts c)))) = (c', p) /\ wf c' /\ word p).
  { destruct (halt (inc_r (disable_interrupts c))); eexists _, _; (split; [reflexivity|]);
      split; auto 6 with rng. }
  destruct E as (c' & p & E & Hw' & Hp). cbv zeta. rewrite E. cbn [Trace.wpl]. intros t v w Hv.
  assert (G : wpl
    match im c' with
    | Mode0 => execute_instruction FL dbg v c'
    | Mode1 => execute_instruction FL dbg RST_38H_OPCODE c'
    | Mode2 => AddNoMreq (get_ir c') 1
        (pbind (on_cpu (push16 p) c') (fun x =>
         execute_instruction FL dbg JP_OPCODE (set_pc (Z.lor (Z.land (get_ir c') 0xFF00) v) (fst x))))
    end (good (fun x => wf (fst x)))).
  { destruct (im c').
    - now apply execute_instruction_na.
    - apply execute_instruction_na; [unfold byte, RST_38H_OPCODE; lia|assumption].
    - cbn [Trace.wpl]. apply (wpl_na_pre _ _ [KNoMreq (get_ir c') 1]); [st|].
      apply (wpl_na_bind _ _ _ _ (push16_na _ _ Hp Hw')).
      intros [c2 u] H. apply execute_instruction_na; [unfold byte, JP_OPCODE; lia|].
      apply wf_set_pc; [|exact H]. apply lor_word.
      + apply land_word_r. unfold word; lia.
      + now apply byte_word. }
  destruct w as [n|]; cbn [Trace.wpl]; (refine (wpl_mono _ _ _ _ G); intros x l [H1 H2]; split; [exact H2|]).
  - exists p, t, v, (Some n), (KWait p n :: l). split; [reflexivity|]. constructor; [exact I|exact H1].
  - exists p, t, v, None, l. auto.
Qed.

(** ** The loops *)
Notation ac := (fun _ l => acked 0 l).
Lemma pre_na {B} (k : prog TS WB RB B) l s : qt l -> wpl k ac -> wpl k (fun _ l' => acked s (l ++ l')).
Proof. intros F. apply wpl_mono. intros a l' H. now apply acked_free. Qed.
Lemma bind_na {A B} (p : prog TS WB RB A) (k : A -> prog TS WB RB B) (P : A -> Prop) : wpl p (good P) -> (forall x, P x -> wpl (k x) ac) -> wpl (pbind p k) ac.
Proof. intros H1 H2. apply wpl_bind. refine (wpl_mono _ _ _ _ H1). intros x l [Hl Hx]. apply pre_na; auto. Qed.
Lemma past_na {B} (k : bool -> prog TS WB RB B) : (forall b, wpl (k b) ac) -> wpl (IsPastLimit k) ac.
Proof. intros H. cbn [Trace.wpl]. intros b. apply (pre_na _ [KPast b]); [st|apply H]. Qed.
Lemma test_na {B} a (k : bool -> prog TS WB RB B) : wpl (k false) ac -> wpl (k true) (fun _ l => acked 1 l) -> wpl (test_irq a k) ac.
Proof.
  intros HF HT. unfold test_irq. destruct a; [|exact HF]. cbn [Trace.wpl]. intros t [|].
  - refine (wpl_mono _ _ _ _ HT). intros x l H. split; [exact I|]. split; [exact I|exact H].
  - refine (wpl_mono _ _ _ _ HF). intros x l H. split; [exact I|]. split; [exact I|exact H].
Qed.
Lemma irq_na (k : cpu Q -> prog TS WB RB (option (cpu Q * result WB RB))) c : (forall c', wf c' -> wpl (k c') ac) -> wf c ->
  wpl (pbind (irq_no_check FL false c) (fun y =>
         match snd y with
         | None => IsPastLimit (fun past => if past then Ret (Some (fst y, None)) else k (fst y))
         | Some e => Ret (Some (fst y, Some e))
         end)) (fun _ l => acked 1 l).
Proof.
  intros Hk Hw. apply wpl_bind. refine (wpl_mono _ _ _ _ (irq_no_check_na false c Hw)). intros [c' r] l [W (p & t & v & w & l' & -> & F)]. cbn [fst snd] in *.
  assert (G : forall x : prog TS WB RB (option (cpu Q * result WB RB)), wpl x ac -> wpl x (fun _ l2 => acked 1 ((KIrq p t :: EIrqData p t v w :: l') ++ l2))).
  { intros x. apply wpl_mono. intros a l2 H. split; [exact I|]. split; [reflexivity|]. now apply (acked_free l' l2). }
  apply G. destruct r as [r|]; [exact I|]. apply past_na. intros [|]; [exact I|]. now apply Hk.
Qed.
Lemma ewl_loop_na fuel : forall s, wfst s -> wpl (ewl_loop FL fuel s) ac.
Proof.
  induction fuel as [|n IH]; intros s Hs; cbn [ewl_loop]; [exact I|].
  apply (bind_na _ _ (fun x => wfst (fst x))); [apply wpl_and; [now apply loop_instr_na|now apply loop_instr_wf]|].
  intros [s' r] W. cbn [fst snd] in *. destruct r as [[]|]; try exact I.
  - apply past_na. intros [|]; [exact I|]. apply IH. destruct W as (H1 & H2 & H3). split; [|split]; cbn [sc sfl spc]; auto with rng.
  - apply past_na. intros [|]; [exact I|]. apply test_na; [now apply IH|].
    apply (irq_na (fun c' => ewl_loop FL n (load_st c'))); [|now apply wf_store]. intros c' Hc. apply IH. now apply wf_load.
Qed.
Lemma ewl_halted_na fuel : forall c, wf c -> wpl (ewl_halted (TS:=TS) (WB:=WB) (RB:=RB) fuel c) (fun x l => qt l /\ match x with Some (inr c') => wf c' | _ => True end).
Proof.
  induction fuel as [|n IH]; intros c Hw; cbn [ewl_halted]; [split; [st|exact I]|]. cbn [Trace.wpl]. intros [|]; [split; [st|exact I]|].
  assert (G : forall l0, qt l0 -> wpl (AddM1 (pc c) (fun _ => ewl_halted (TS:=TS) (WB:=WB) (RB:=RB) n (inc_r c))) (fun x l => qt (l0 ++ l) /\ match x with Some (inr c') => wf c' | _ => True end)).
  { intros l0 F. cbn [Trace.wpl]. intros t. refine (wpl_mono _ _ _ _ (IH (inc_r c) ltac:(auto with rng))). intros x l [H1 H2]. split; [|exact H2].
    apply Forall_app. split; [exact F|]. constructor; [exact I|exact H1]. }
  unfold test_irq. destruct (iff1 c).
  - cbn [Trace.wpl]. intros t [|]; [split; [st|exact Hw]|]. apply (G [KPast false; KTs t; EIsIrq t false]). st.
  - apply (G [KPast false]). st.
Qed.
Lemma ewl_start_na fuel c : wf c -> wpl (ewl_start FL fuel c) ac.
Proof.
  intros Hw. unfold ewl_start. destruct (last_ei c); [apply ewl_loop_na, wf_load; auto with rng|].
  apply test_na; [now apply ewl_loop_na, wf_load|].
  apply (irq_na (fun c' => ewl_loop FL fuel (load_st c'))); [|exact Hw]. intros c' Hc. now apply ewl_loop_na, wf_load.
Qed.
Lemma ewl_na da fuel c : wf c -> (da = true -> halt c = true -> is_int_allowed (prefix c) (last_ei c) = true) ->
  wpl (execute_with_limit FL da fuel c) ac.
Proof.
  intros Hw Hd. unfold execute_with_limit. destruct (halt c) eqn:E.
  - replace (da && negb (is_int_allowed (prefix c) (last_ei c))) with false by (destruct da; [rewrite Hd by reflexivity|]; reflexivity).
    apply (bind_na _ _ _ (ewl_halted_na fuel c Hw)). intros [[c'|c']|] Hx; try exact I. now apply ewl_start_na.
  - apply past_na. intros [|]; [exact I|]. now apply ewl_start_na.
Qed.
End N.

(** Where an acknowledge comes from. *)
Lemma acked_at {TS WB RB} (l1 : list (ev TS WB RB)) : forall s p t v w l2, acked s (l1 ++ EIrqData p t v w :: l2) -> fold_left seen l1 s = 2.
Proof. induction l1 as [|x l1 IH]; intros s p t v w l2 [H1 H2]; [exact H1|]. exact (IH _ _ _ _ _ _ H2). Qed.
Lemma stamped_at {TS WB RB} (l0 : list (ev TS WB RB)) y x l2 : forall e, stamped e ((l0 ++ [y]) ++ x :: l2) -> covered (Some y) x.
Proof. induction l0 as [|z l0 IH]; intros e H; cbn [app stamped] in H; [apply H|]. exact (IH _ (proj2 H)). Qed.
Lemma acked_split {TS WB RB} (l1 : list (ev TS WB RB)) p t v w l2 : acked 0 (l1 ++ EIrqData p t v w :: l2) -> stamped None (l1 ++ EIrqData p t v w :: l2) ->
  exists l0 t0, l1 = l0 ++ [KTs t0; EIsIrq t0 true; KIrq p t].
Proof.
  intros HA HS. apply acked_at in HA.
  destruct l1 as [|x l1 _] using rev_ind; [discriminate HA|]. pose proof (stamped_at _ _ _ _ _ HS) as C. cbn [covered] in C. injection C as ->.
  rewrite fold_left_app in HA. cbn [fold_left seen] in HA. destruct (_ =? 1) eqn:E; [|discriminate HA]. clear HA. apply Z.eqb_eq in E.
  destruct l1 as [|y l1 _] using rev_ind; [discriminate E|]. rewrite fold_left_app in E. cbn [fold_left] in E.
  assert (Y : exists t0, y = EIsIrq t0 true).
  { destruct y; cbn [seen] in E; try discriminate E; [destruct (_ =? 1) in E; discriminate E|]. destruct b; [eauto|discriminate E]. }
  destruct Y as [t0 ->]. clear E. rewrite <- app_assoc in HS. cbn [app] in HS.
  destruct l1 as [|z l1 _] using rev_ind.
  - rewrite <- app_assoc in HS. destruct HS as [C _]. discriminate C.
  - rewrite <- app_assoc in HS. cbn [app] in HS. apply (stamped_at l1 z _ _ None) in HS. cbn [covered] in HS. injection HS as ->.
    exists l1, t0. now rewrite <- !app_assoc.
Qed.
Lemma acknowledged {Q} (FL : Flavour Q) {TS WB RB BS CK} (Hs : host TS WB RB BS CK) da fuel (c : cpu Q) b k c' r b' k' l1 p t v w l2 : wf c ->
  runl Hs (execute_with_limit FL da fuel c) b k = Some (Some (c', r), b', k', l1 ++ EIrqData p t v w :: l2) ->
  exists l0 t0, l1 = l0 ++ [KTs t0; EIsIrq t0 true; KIrq p t].
Proof.
  intros Wc E. assert (DA : da = true -> halt c = true -> is_int_allowed (prefix c) (last_ei c) = true).
  { intros -> Hh. unfold execute_with_limit in E. rewrite Hh in E. destruct (is_int_allowed _ _); [reflexivity|discriminate E]. }
  refine (acked_split _ _ _ _ _ _ (wpl_at _ _ _ _ _ _ _ _ _ _ _ (ewl_na FL da fuel c Wc DA) E) _).
  destruct (wpl_at _ _ _ _ _ _ _ _ _ _ _ (execute_with_limit_stm FL da fuel c Wc DA) E) as [ST _]. exact (ST None).
Qed.
