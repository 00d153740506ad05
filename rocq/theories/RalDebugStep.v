(** C63: what a debugger sees of one [execute_next]. *)
From Coq Require Import ZArith Bool List Lia.
From Verif Require Import Base Flags Ops Parse Cpu Flavours Prog Trace Internal Instr Exec Decode Opconsts Sym Range SpecState SpecIsa SpecLog SpecInt SpecDebug
  IsaExec Dbg DbgRep DbgRun SafeEntry NoAck NoAckRun SpecForward RalMemory RalBus RalRunner RalDebug SpecRalDebug.
Import ListNotations.
Open Scope Z_scope.

Section N.
Context {Q TS WB RB : Type}.
Variable FL : Flavour Q.
Implicit Types c : cpu Q.
Notation wpl := (Trace.wpl (TS:=TS) (WB:=WB) (RB:=RB)) (only parsing).
Notation log := (list (ev TS WB RB)).
Lemma debugs_app (l l' : log) : debugs (l ++ l') = debugs l ++ debugs l'.
Proof. induction l as [|e l IH]; [reflexivity|]. cbn [app]. destruct e; cbn [debugs app]; rewrite IH; reflexivity. Qed.
Lemma debugs_silent (l : log) : Forall silent l -> debugs l = [].
Proof. induction 1 as [|e l F _ IH]; [reflexivity|]. destruct e; cbn [debugs]; auto. destruct F. Qed.
Lemma fetching_silent (l : log) : Forall fetching l -> Forall silent l.
Proof. apply Forall_impl. now intros []. Qed.
Lemma debugs_reported first p (l : log) d : reported first p l d -> debugs l = [d].
Proof.
  intros (l1 & l2 & rd & -> & F1 & F2 & _). rewrite debugs_app, (debugs_silent _ (fetching_silent _ F1)). cbn [app debugs]. now rewrite debugs_silent.
Qed.
Lemma last_irq_na (l : log) s : Forall not_ack l -> last_irq_data l s = s.
Proof. revert s. induction l as [|e l IH]; intros s F; [reflexivity|]. inversion F as [|? ? F1 F2]; subst. cbn [last_irq_data fold_left]. destruct e; try exact (IH _ F2). destruct F1. Qed.

(** ** What is read are bytes *)
Definition read_ok (e : ev TS WB RB) : Prop := Forall (fun x => byte (snd x)) (code_reads e).
Lemma wpl_reads {A} (p : prog TS WB RB A) : forall P, wpl p P -> wpl p (fun x l => P x l /\ Forall read_ok l).
Proof.
  induction p; intros P; cbn [Trace.wpl]; intros HP.
  1: auto.
  1: exact HP.
  all: intros; first
    [ refine (wpl_mono _ _ _ _ (IHp _ HP))
    | refine (wpl_mono _ _ _ _ (H _ _ (HP _ _))); [|assumption]
    | refine (wpl_mono _ _ _ _ (H _ _ _ (HP _ _ _))); [|assumption]
    | refine (wpl_mono _ _ _ _ (H _ _ (HP _)))
    | refine (wpl_mono _ _ _ _ (H _ _ _ (HP _ _))) ].
  all: intros y l [H1 H2]; split; [exact H1|]; constructor; [|exact H2]; unfold read_ok; cbn; repeat constructor; cbn; try assumption.
  all: unfold byte, word in *; lia.
Qed.
Lemma reported_bytes first p (l : log) d : Forall read_ok l -> Forall byte first -> reported first p l d -> Forall byte (dcode d).
Proof.
  intros F FB (l1 & l2 & rd & -> & _ & _ & E & _ & -> & _). apply Forall_app. split; [exact FB|]. apply Forall_app in F as [F _]. subst rd. clear FB. induction F as [|e l1 H F IH]; [constructor|].
  cbn [flat_map]. rewrite map_app. apply Forall_app. split; [|exact IH]. now apply Forall_map.
Qed.
Lemma prefix_instr dbg code c : is_prefix code = true ->
  wpl (execute_instruction FL dbg code c) (fun x l => prefix (fst x) <> None /\ halt (fst x) = false /\ pc (fst x) = pc c).
Proof.
  intros H. assert (E : code = 0xDD \/ code = 0xFD) by (unfold is_prefix in H; lia). unfold execute_instruction, exec_code, load_st.
  destruct E as [-> | ->]; destruct (prefix c) as [px|] eqn:P; cbn; rewrite ?P; cbn; repeat split; discriminate.
Qed.
Lemma jp_instr dbg c : prefix c = None -> wpl (execute_instruction FL dbg 0xC3 c) (fun x l => im (fst x) = im c /\ get_i (fst x) = get_i c).
Proof. intros P. unfold execute_instruction, exec_code, load_st. cbn. rewrite P. destruct dbg; cbn; intros; split; reflexivity. Qed.
Lemma rst_instr dbg c : wpl (execute_instruction FL dbg 0xFF c) (fun x l => im (fst x) = im c /\ get_i (fst x) = get_i c).
Proof. unfold execute_instruction, exec_code, load_st. cbn. destruct (prefix c) as [px|] eqn:P; destruct dbg; cbn; rewrite ?P; cbn; intros; split; reflexivity. Qed.
Lemma irq_post dbg c : wf c -> prefix c = None -> wpl (irq_no_check FL dbg c) (fun x l => exists p t v w l', l = KIrq p t :: EIrqData p t v w :: l' /\
  (is_prefix (fst (injected c v)) = true -> prefix (fst x) <> None /\ halt (fst x) = false) /\ (im c <> Mode0 -> im (fst x) = im c /\ get_i (fst x) = get_i c)).
Proof.
  intros Hw Hp. unfold irq_no_check.
  assert (E : exists c' p, (if halt (inc_r (disable_interrupts c))
       then (set_pc (u16 (pc (inc_r (disable_interrupts c)) + 1)) (set_halt false (inc_r (disable_interrupts c))),
             u16 (pc (inc_r (disable_interrupts c)) + 1))
       else (inc_r (disable_interrupts c), pc (inc_r (disable_interrupts c)))) = (c', p) /\ im c' = im c /\ prefix c' = None /\ get_i c' = get_i c /\ wf c').
  { destruct (halt (inc_r (disable_interrupts c))); eexists _, _; (split; [reflexivity|]); (split; [reflexivity|]); (split; [exact Hp|]); (split; [reflexivity|auto 6 with rng]). }
  destruct E as (c' & p & E & Hi & Hp' & HI & Hw'). cbv zeta. rewrite E. cbn [Trace.wpl]. intros t v w Hv.
  assert (G : wpl
    match im c' with
    | Mode0 => execute_instruction FL dbg v c'
    | Mode1 => execute_instruction FL dbg RST_38H_OPCODE c'
    | Mode2 => AddNoMreq (get_ir c') 1
        (pbind (on_cpu (push16 p) c') (fun x =>
         execute_instruction FL dbg JP_OPCODE (set_pc (Z.lor (Z.land (get_ir c') 0xFF00) v) (fst x))))
    end (fun x l => (is_prefix (fst (injected c v)) = true -> prefix (fst x) <> None /\ halt (fst x) = false) /\ (im c <> Mode0 -> im (fst x) = im c /\ get_i (fst x) = get_i c))).
  { unfold injected. rewrite <- Hi. destruct (im c') eqn:IM; cbn [fst].
    - destruct (is_prefix v) eqn:PV.
      + refine (wpl_mono _ _ _ _ (prefix_instr dbg v c' PV)). intros x l (H1 & H2 & _). split; [auto|congruence].
      + refine (wpl_mono _ _ _ _ (execute_instruction_wf FL dbg v c' Hv Hw')). intros x l _. split; [discriminate|congruence].
    - refine (wpl_mono _ _ _ _ (rst_instr dbg c')). intros x l [H1 H2]. split; [discriminate|]. intros _. rewrite H1, H2. split; [exact IM|exact HI].
    - cbn [Trace.wpl]. apply wpl_bind. refine (wpl_mono _ _ _ _ (push16_log p c')). intros [c2 u] lp [Ec _]. cbn [fst] in *. subst c2.
      refine (wpl_mono _ _ _ _ (jp_instr dbg _ _)); [|exact Hp']. intros x l [H1 H2]. split; [discriminate|]. intros _. rewrite H1, H2. split; [exact IM|exact HI]. }
  destruct w as [n|]; cbn [Trace.wpl]; (refine (wpl_mono _ _ _ _ G); intros x l H).
  - exists p, t, v, (Some n), (KWait p n :: l). split; [reflexivity|exact H].
  - exists p, t, v, None, l. split; [reflexivity|exact H].
Qed.

(** ** [execute_next] with a debugger: an interrupt; halted; an instruction or a prefix *)
Definition by_int c (x : cpu Q * result WB RB) (l : log) : Prop :=
  exists t p t' v w l', l = KTs t :: EIsIrq t true :: KIrq p t' :: EIrqData p t' v w :: l' /\ byte v /\ Forall not_ack l' /\ is_irq_allowed c = true /\
    if is_prefix (fst (injected c v)) then debugs l = [] /\ prefix (fst x) <> None /\ halt (fst x) = false
    else exists d, debugs l = [d] /\ well_described d /\ dprefix d = None /\ hd_error (dcode d) = Some (fst (injected c v)) /\ Forall byte (dcode d) /\
      (im c <> Mode0 -> im (fst x) = im c /\ get_i (fst x) = get_i c).
Definition by_code c (x : cpu Q * result WB RB) (l : log) : Prop :=
  halt c = false /\ Forall not_ack l /\ exists code, byte code /\
    if is_prefix code then debugs l = [] /\ prefix (fst x) <> None /\ halt (fst x) = false
    else exists d, reported (pbyte (used_prefix (prefix c) code)) (pc c) l d /\ dprefix d = used_prefix (prefix c) code /\ well_described d /\ Forall byte (dcode d).
Definition by_halt c (x : cpu Q * result WB RB) (l : log) : Prop := halt c = true /\ fst x = inc_r c /\ snd x = None /\ debugs l = [] /\ Forall not_ack l.
Lemma allowed_px c : is_irq_allowed c = true -> prefix c = None.
Proof. unfold is_irq_allowed, is_int_allowed. intros E. destruct (prefix c); [|reflexivity]. now rewrite andb_false_r in E. Qed.
Lemma int_seen c t : wf c -> is_irq_allowed c = true ->
  wpl (irq_no_check FL true c) (fun x l => wf (fst x) /\ by_int c x (KTs t :: EIsIrq t true :: l)).
Proof.
  intros Hw A. pose proof (allowed_px c A) as Hp.
  refine (wpl_mono _ _ _ _ (wpl_reads _ _ (wpl_and _ _ _ (irq_no_check_rep FL c Hw Hp) (wpl_and _ _ _ (irq_no_check_na FL true c Hw) (irq_post true c Hw Hp))))).
  intros x l [[R [[W (p & t' & v & w & l' & E & NA)] (p2 & t2 & v2 & w2 & l2 & E2 & P1 & P2)]] RO]. split; [exact W|].
  subst l. injection E2; clear E2; intros; subst p2 t2 v2 w2 l2.
  destruct R as (t3 & v3 & w3 & l0 & l3 & B3 & E3 & S0 & R). injection E3; clear E3; intros E3; intros; subst p t3 v3 w3.
  exists t, (return_to c), t', v, w, l'. split; [reflexivity|]. split; [exact B3|]. split; [exact NA|]. split; [exact A|].
  cbn [debugs]. rewrite E3, debugs_app, (debugs_silent _ S0). cbn [app]. destruct (is_prefix (fst (injected c v))).
  - split; [now apply debugs_silent|]. now apply P1.
  - destruct R as (d & R & DP & WD). exists d. split; [now apply (debugs_reported _ _ _ _ R)|]. split; [exact WD|]. split; [exact DP|].
    assert (FB : Forall byte (dcode d)).
    { refine (reported_bytes _ _ l3 d _ _ R); [rewrite E3 in RO; inversion RO as [|? ? _ RO1]; inversion RO1 as [|? ? _ RO2]; now apply Forall_app in RO2|].
      constructor; [|constructor]. unfold injected. destruct (im c); cbn; [exact B3|unfold byte; lia..]. }
    split; [|split; [exact FB|exact P2]]. destruct R as (l4 & l5 & rd & _ & _ & _ & _ & _ & CD & _). rewrite CD. reflexivity.
Qed.
Lemma halt_seen c (l0 : log) : wf c -> halt c = true -> debugs l0 = [] -> Forall not_ack l0 ->
  wpl (AddM1 (pc c) (fun _ => Ret (inc_r c, None))) (fun x l => wf (fst x) /\ by_halt c x (l0 ++ l)).
Proof.
  intros Hw Hh D0 N0. cbn. intros t. split; [auto with rng|]. split; [exact Hh|]. split; [reflexivity|]. split; [reflexivity|].
  split; [rewrite debugs_app, D0; reflexivity|]. apply Forall_app. split; [exact N0|repeat constructor].
Qed.
Lemma reported_pre first p (l0 l : log) d : Forall fetching l0 -> flat_map code_reads l0 = [] -> reported first p l d -> reported first p (l0 ++ l) d.
Proof.
  intros F0 C0 (l1 & l2 & rd & -> & F1 & F2 & E & H). exists (l0 ++ l1), l2, rd. split; [now rewrite app_assoc|]. split; [now apply Forall_app|].
  split; [exact F2|]. split; [now rewrite flat_map_app, C0|exact H].
Qed.
Lemma code_seen c (l0 : log) : wf c -> halt c = false -> debugs l0 = [] -> Forall not_ack l0 -> Forall fetching l0 -> flat_map code_reads l0 = [] ->
  wpl (pbind (on_cpu (fetch_next_opcode (pc c)) c) (fun x => execute_instruction FL true (snd (snd x)) (set_pc (fst (snd x)) (fst x))))
    (fun x l => wf (fst x) /\ by_code c x (l0 ++ l)).
Proof.
  intros Hw Hh D0 N0 F0 C0. apply wpl_bind. unfold on_cpu, fetch_next_opcode. cbn. intros t v Hv.
  assert (Hw2 : wf (set_pc (u16 (pc c + 1)) (inc_r c))) by auto with rng.
  assert (X : wpl (execute_instruction FL true v (set_pc (u16 (pc c + 1)) (inc_r c))) (fun x l => is_prefix v = true -> prefix (fst x) <> None /\ halt (fst x) = false)).
  { destruct (is_prefix v) eqn:E.
    - refine (wpl_mono _ _ _ _ (prefix_instr true v _ E)). intros x l (H1 & H2 & _) _. auto.
    - refine (wpl_mono _ _ _ _ (execute_instruction_wf FL true v _ Hv Hw2)). intros x l _. discriminate. }
  refine (wpl_mono _ _ _ _ (wpl_reads _ _ (wpl_and _ _ _ X (wpl_and _ _ _ (execute_instruction_rep FL v _ Hv Hw2) (execute_instruction_na FL true v _ Hv Hw2))))).
  intros x l [[P [R [NA W]]] RO]. split; [exact W|]. split; [exact Hh|].
  split; [apply Forall_app; split; [exact N0|]; constructor; [exact I|]; constructor; [exact I|exact NA]|].
  exists v. split; [exact Hv|]. unfold step_rep in R. change (prefix (set_pc (u16 (pc c + 1)) (inc_r c))) with (prefix c) in R. destruct (is_prefix v).
  - split; [|now apply P]. rewrite debugs_app, D0. cbn [app debugs]. now apply debugs_silent.
  - destruct R as (d & R & DP & WD). exists d. split; [|split; [exact DP|split; [exact WD|]]].
    2: { refine (reported_bytes _ _ l d RO _ R). apply Forall_app. split; [destruct (used_prefix _ _) as [[]|]; cbn [pbyte]; repeat (apply Forall_cons; [unfold byte; lia|]); apply Forall_nil|apply Forall_cons; [exact Hv|apply Forall_nil]]. } apply reported_pre; [exact F0|exact C0|].
    destruct R as (l1 & l2 & rd & -> & F1 & F2 & E & AD & CD & PD). eexists (_ :: _ :: l1), l2, ((pc c, v) :: rd). split; [reflexivity|].
    split; [repeat constructor; exact F1|]. split; [exact F2|]. cbn [flat_map code_reads app]. split; [now rewrite E|].
    cbn [map length addrs fst snd pc set_pc] in *. split; [f_equal; exact AD|]. split; [rewrite CD, <- app_assoc; reflexivity|].
    rewrite PD, app_length. cbn [length]. unfold u16. rewrite Nat2Z.inj_add, Zminus_mod_idemp_l. f_equal. lia.
Qed.
Lemma next_seen c : wf c -> wpl (execute_next FL true c) (fun x l => wf (fst x) /\ (by_int c x l \/ by_halt c x l \/ by_code c x l)).
Proof.
  intros Hw. unfold execute_next, test_irq. destruct (is_irq_allowed c) eqn:A.
  - cbn [Trace.wpl]. intros t [].
    + refine (wpl_mono _ _ _ _ (int_seen c t Hw A)). intros x l [W H]. auto.
    + destruct (halt c) eqn:Hh.
      * refine (wpl_mono _ _ _ _ (halt_seen c [KTs t; EIsIrq t false] Hw Hh eq_refl _)); [|repeat constructor]. intros x l [W H]. auto.
      * refine (wpl_mono _ _ _ _ (code_seen c [KTs t; EIsIrq t false] Hw Hh eq_refl _ _ eq_refl)); [|repeat constructor..]. intros x l [W H]. auto.
  - destruct (halt c) eqn:Hh.
    + refine (wpl_mono _ _ _ _ (halt_seen c [] Hw Hh eq_refl _)); [|repeat constructor]. intros x l [W H]. auto.
    + refine (wpl_mono _ _ _ _ (code_seen c [] Hw Hh eq_refl _ _ eq_refl)); [|repeat constructor..]. intros x l [W H]. auto.
Qed.
End N.
