(** An invariant rule for the loops of [execute_with_limit], valid for every host. *)
From Coq Require Import ZArith Bool List Lia.
From Verif Require Import Base Flags Ops Parse Cpu Flavours Prog Trace Internal Instr Exec Range Safe SafeEntry.
Import ListNotations.
Open Scope Z_scope.

Section Ewl.
Context {Q TS WB RB : Type}.
Variable FL : Flavour Q.
Implicit Types c : cpu Q.
Implicit Types s : @st Q.
Notation wpl := (Trace.wpl (TS:=TS) (WB:=WB) (RB:=RB)) (only parsing).
Notation log := (list (ev TS WB RB)).

(** [A]: invariant of the CPU struct at entry and exit; [L]: of the locals before each instruction;
    [LP]: a property of logs, preserved by concatenation. *)
Variable A : cpu Q -> Prop.
Variable L : @st Q -> Prop.
Variable LP : log -> Prop.
Hypothesis LP_nil : LP [].
Hypothesis LP_app : forall l l', LP l -> LP l' -> LP (l ++ l').
Hypothesis LP_past : forall b, LP [KPast b].
Hypothesis LP_irq : forall t b, LP [KTs t; EIsIrq t b].
Hypothesis LP_m1 : forall c t, A c -> halt c = true -> LP [KM1 (pc c) t].
Hypothesis H_loop : forall s, L s -> wpl (loop_instr FL s) (fun x l =>
  LP l /\ A (store_st (fst x)) /\
  match snd x with
  | None => L (fst x)
  | Some EnableInt => L (mkSt (set_last_ei false (sc (fst x))) (sfl (fst x)) (spc (fst x)) (spx (fst x)))
  | _ => True
  end).
Hypothesis H_irq : forall c, A c -> wpl (irq_no_check FL false c) (fun y l =>
  LP l /\ A (fst y) /\ (snd y = None -> L (load_st (fst y)))).
Hypothesis H_start : forall c, A c -> L (load_st c) /\ (last_ei c = true -> L (load_st (set_last_ei false c))).
Hypothesis H_incr : forall c, A c -> halt c = true -> A (inc_r c).
Hypothesis H_halt_inc : forall c, halt (inc_r c) = halt c.

Definition okr (x : option (cpu Q * result WB RB)) : Prop :=
  match x with None => True | Some y => A (fst y) end.
Notation good := (fun x l => LP l /\ okr x).

(** Prefixing a log. *)
Lemma wpl_pre {B} (k : prog TS WB RB B) (R : B -> Prop) l :
  LP l -> wpl k (fun x l' => LP l' /\ R x) -> wpl k (fun x l' => LP (l ++ l') /\ R x).
Proof. intros Hl. apply wpl_mono. intros a l' [H1 H2]. split; [now apply LP_app|exact H2]. Qed.
Lemma wpl_past {B} (k : bool -> prog TS WB RB B) (R : B -> Prop) :
  (forall b, wpl (k b) (fun x l' => LP l' /\ R x)) -> wpl (IsPastLimit k) (fun x l' => LP l' /\ R x).
Proof. intros H. cbn [Trace.wpl]. intros b. apply (wpl_pre _ R [KPast b]); auto. Qed.
Lemma wpl_bind_pre {B C} (p : prog TS WB RB B) (k : B -> prog TS WB RB C) (P : B -> Prop) (R : C -> Prop) :
  wpl p (fun x l => LP l /\ P x) -> (forall x, P x -> wpl (k x) (fun y l => LP l /\ R y)) ->
  wpl (pbind p k) (fun y l => LP l /\ R y).
Proof.
  intros H1 H2. apply wpl_bind. refine (wpl_mono _ _ _ _ H1). intros x l [Hl Hx].
  apply (wpl_pre _ R l Hl). now apply H2.
Qed.
Lemma wpl_test {B} b (k : bool -> prog TS WB RB B) (R : B -> Prop) :
  (forall q, wpl (k q) (fun x l' => LP l' /\ R x)) -> wpl (test_irq b k) (fun x l' => LP l' /\ R x).
Proof.
  intros H. unfold test_irq. destruct b; [|apply H]. cbn [Trace.wpl].
  intros t x. apply (wpl_pre _ R [KTs t; EIsIrq t x]); auto.
Qed.

Lemma ewl_irq_inv (k : cpu Q -> prog TS WB RB (option (cpu Q * result WB RB))) c :
  (forall c', L (load_st c') -> wpl (k c') good) -> A c ->
  wpl (pbind (irq_no_check FL false c) (fun y =>
         match snd y with
         | None => IsPastLimit (fun past => if past then Ret (Some (fst y, None)) else k (fst y))
         | Some e => Ret (Some (fst y, Some e))
         end)) good.
Proof.
  intros Hk Ha. apply (wpl_bind_pre _ _ _ _ (H_irq c Ha)).
  intros [c' [r|]] [HA HL]; cbn [fst snd] in *; [now split|].
  apply wpl_past. intros [|]; [now split|]. apply Hk. now apply HL.
Qed.

Lemma ewl_loop_inv fuel : forall s, L s -> wpl (ewl_loop FL fuel s) good.
Proof.
  induction fuel as [|n IH]; intros s Hs; cbn [ewl_loop]; [now split|].
  apply (wpl_bind_pre _ _ _ _ (H_loop s Hs)).
  intros [s' r] [HA HL]; cbn [fst snd] in *.
  destruct r as [[]|]; try (now split).
  - apply wpl_past. intros [|]; [now split|]. now apply IH.
  - apply wpl_past. intros [|]; [now split|].
    apply wpl_test. intros [|]; [|now apply IH].
    apply (ewl_irq_inv (fun c' => ewl_loop FL n (load_st c'))); [|exact HA]. intros c' Hc. now apply IH.
Qed.

Lemma ewl_halted_inv fuel : forall c, A c -> halt c = true ->
  wpl (ewl_halted (TS:=TS) (WB:=WB) (RB:=RB) fuel c) (fun x l => LP l /\
    match x with None => True | Some (inl c') | Some (inr c') => A c' /\ halt c' = true end).
Proof.
  induction fuel as [|n IH]; intros c Ha Hh; cbn [ewl_halted]; [now split|].
  apply (wpl_past (B := option (cpu Q + cpu Q))). intros [|]; [now split|].
  apply wpl_test. intros [|]; [now split|]. cbn [Trace.wpl]. intros t.
  apply (wpl_pre _ _ [KM1 (pc c) t]); [now apply LP_m1|].
  apply IH; [now apply H_incr|]. now rewrite H_halt_inc.
Qed.

Lemma ewl_start_inv fuel c : A c -> wpl (ewl_start FL fuel c) good.
Proof.
  intros Ha. destruct (H_start c Ha) as [H1 H2]. unfold ewl_start.
  destruct (last_ei c); [now apply ewl_loop_inv, H2|].
  apply wpl_test. intros [|]; [|now apply ewl_loop_inv].
  apply (ewl_irq_inv (fun c' => ewl_loop FL fuel (load_st c'))); [|exact Ha].
  intros c' Hc. now apply ewl_loop_inv.
Qed.

Lemma execute_with_limit_log da fuel c : A c ->
  (da = true -> halt c = true -> is_int_allowed (prefix c) (last_ei c) = true) ->
  wpl (execute_with_limit FL da fuel c) good.
Proof.
  intros Ha Hd. unfold execute_with_limit. destruct (halt c) eqn:E.
  - replace (da && negb (is_int_allowed (prefix c) (last_ei c))) with false
      by (destruct da; [rewrite Hd by reflexivity|]; reflexivity).
    apply (wpl_bind_pre _ _ _ _ (ewl_halted_inv fuel c Ha E)).
    intros [[c'|c']|] Hx; try (now split). apply ewl_start_inv, Hx.
  - apply wpl_past. intros [|]; [now split|]. now apply ewl_start_inv.
Qed.
End Ewl.

Section EwlWf.
Context {Q TS WB RB : Type}.
Variable FL : Flavour Q.
Lemma loop_instr_wf (s : @st Q) : wfst s ->
  wpl (TS:=TS) (WB:=WB) (RB:=RB) (loop_instr FL s) (fun x _ => wfst (fst x)).
Proof.
  intros (H1 & H2 & H3). unfold loop_instr. apply wpl_bind.
  unfold fetch_next_opcode. cbn. intros.
  refine (wpl_mono _ _ _ _ (exec_code_wf FL false _ (mkSt _ _ _ _) _ _));
    [intros; assumption| assumption|].
  split; [|split]; cbn [sc sfl spc]; [change (wf (inc_r (sc s)))| |]; auto with rng.
Qed.
Lemma execute_with_limit_wf da fuel (c : cpu Q) : wf c ->
  (da = true -> halt c = true -> is_int_allowed (prefix c) (last_ei c) = true) ->
  wpl (TS:=TS) (WB:=WB) (RB:=RB) (execute_with_limit FL da fuel c) (fun x _ => okr wf x).
Proof.
  intros Hw Hd.
  apply (wpl_mono _ (fun x l => True /\ okr wf x)); [intros a l H; apply H|].
  apply execute_with_limit_log with (LP := fun _ => True) (L := wfst); try assumption; trivial.
  - intros s Hs. refine (wpl_mono _ _ _ _ (loop_instr_wf s Hs)).
    intros [s' r] l Hx. split; [exact I|]. split; [now apply wf_store|]. cbn [fst snd] in *.
    destruct r as [[]|]; auto. destruct Hx as (H1 & H2 & H3). split; [|split]; cbn [sc sfl spc]; auto with rng.
  - intros c' Hc. refine (wpl_mono _ _ _ _ (irq_no_check_wf FL false c' Hc)).
    intros [c2 u] l Hx. split; [exact I|]. split; [exact Hx|]. intros _. now apply wf_load.
  - intros c' Hc. split; [now apply wf_load|]. intros _. apply wf_load. auto with rng.
  - intros; auto with rng.
Qed.
End EwlWf.
