(** [execute_with_limit] is repeated [execute_next]: C22. *)
From Coq Require Import ZArith Bool List Lia.
From Verif Require Import Base Flags Ops Parse Cpu Flavours Prog Trace Internal Instr Exec Range Safe SafeEntry SafeRun
  SpecAlu SpecState SpecIsa SpecCycles SpecStep SpecReach SpecLoop IsaLink IsaArith IsaTac IsaCycles IsaFacts IsaExec IsaRun Steps Lock IsaControl Accessors AluProofs Decode Control Reach.
Import ListNotations.
Open Scope Z_scope.

Lemma lsim_ret_r {TS WB RB A B C} AW AR AO AI (R : A -> B -> Prop) (R' : A -> C -> Prop) (p : prog TS WB RB A) q (f : B -> C) :
  lsim AW AR AO AI R p q -> (forall a b, R a b -> R' a (f b)) ->
  lsim AW AR AO AI R' p (pbind q (fun b => Ret (f b))).
Proof. intros H Hf. induction H; cbn [pbind]; try constructor; auto. Qed.
Lemma lsim_refl {TS WB RB A} (p : prog TS WB RB A) : lsim eq eq (fun _ => True) (fun _ => True) eq p p.
Proof. induction p; constructor; intros; subst; auto. Qed.

Section D.
Context {Q T TS WB RB : Type}.
Variables (FL : Flavour Q) (ch : chip T) (absq : Q -> T).
Hypothesis OK : chip_ok FL ch absq.
Implicit Types c d : cpu Q.
Implicit Types s : @st Q.
Notation prog := (prog TS WB RB).
Notation log := (list (ev TS WB RB)).
Notation wpl := (Trace.wpl (TS:=TS) (WB:=WB) (RB:=RB)) (only parsing).

(** Fetch and execute, the last part of [execute_next]. *)
Definition ins d : prog (cpu Q * result WB RB) :=
  pbind (on_cpu (fetch_next_opcode (pc d)) d) (fun x =>
    execute_instruction FL false (snd (snd x)) (set_pc (fst (snd x)) (fst x))).
Definition cont (m : nat) (x : cpu Q * result WB RB) : prog (option (cpu Q * result WB RB)) :=
  match snd x with None => drive FL m (fst x) | Some e => Ret (Some (fst x, Some e)) end.

Lemma set_ei_self c : set_last_ei (last_ei c) c = c.
Proof. now destruct c. Qed.
Lemma ins_lsim s d e : wfst s -> halt d = false -> store_st s = set_last_ei e d ->
  lsim eq eq (fun _ => True) (fun _ => True)
    (fun x y => snd y = to_result (snd x) /\ exists e', store_st (fst x) = set_last_ei e' (fst y))
    (loop_instr FL s) (ins d).
Proof.
  intros (W1 & W2 & W3) Hh HS.
  assert (ED : d = set_last_ei (last_ei d) (store_st s)).
  { rewrite HS. now destruct d. }
  remember (last_ei d) as e0 eqn:E0. clear E0 HS e. subst d.
  unfold loop_instr, ins, on_cpu, fetch_next_opcode.
  cbn -[exec_code execute_instruction inc_r get_ir u16 store_st to_result].
  change (pc (set_last_ei e0 (store_st s))) with (spc s).
  change (get_ir (inc_r (set_last_ei e0 (store_st s)))) with (get_ir (inc_r (sc s))).
  constructor. intros t. constructor. intros v _. unfold execute_instruction.
  set (t1 := mkSt (inc_r (sc s)) (sfl s) (u16 (spc s + 1)) (spx s)).
  match goal with |- context [exec_code FL false v (load_st ?x)] => set (t2 := load_st x) end.
  assert (SR : srel (fun _ _ => True) eq t1 t2).
  { change (halt (sc s) = false) in Hh.
    constructor; [|cbn; apply lo_mk; exact W2|reflexivity|reflexivity].
    exists (set8lo (af (sc s)) (sfl s)), (u16 (spc s + 1)), (spx s), false, (flavour (sc s)).
    split; [|split; [|split; [reflexivity|exact I]]].
    - unfold t1, t2, load_st, store_st, withe. cbn [sc inc_r]. cbn. rewrite Hh. reflexivity.
    - unfold t1. cbn. unfold set8lo. rewrite hi_mk by exact W2. reflexivity. }
  apply (lsim_ret_r _ _ _ _ _ _ _ _ (fun x => (store_st (fst x), to_result (snd x)))
    (exec_code_ls FL FL false eq eq (fun _ => True) (fun _ => True) (fun _ _ => True) (fun _ => I) eq true true true true
      ltac:(congruence) ltac:(congruence) ltac:(reflexivity) ltac:(reflexivity) ltac:(reflexivity) ltac:(congruence) v (plain_true _ _) t1 t2 SR)).
  intros [s1 r1] [s2 r2] [H1 H2]. cbn [fst snd] in *. split.
  - destruct r1 as [[]|], r2 as [[]|]; cbn in *; congruence || contradiction.
  - destruct H1 as [(a & z & p & e & q & E & HA & <- & _) E1 E2 E3]. exists (last_ei (sc s1)).
    unfold store_st, set_flags, set8lo. rewrite E, E1, E2, E3. unfold withe. cbn. rewrite HA. reflexivity.
Qed.
Lemma ins_ctl d : wf d -> wpl (ins d) (fun y l => exists p i v bl, buses l = VOp p i v :: bl /\ isbyte v /\
  last_ei (fst y) = (v =? 0xFB) /\ halt (fst y) = (v =? 0x76) /\ wf (fst y)).
Proof.
  intros Hw. unfold ins. apply wpl_bind. unfold on_cpu, fetch_next_opcode. cbn. intros t v Hv.
  assert (W : wf (set_pc (u16 (pc d + 1)) (inc_r d))) by auto with rng.
  refine (wpl_mono _ _ _ _ (wpl_bytes _ _ (execute_instruction_isa FL ch absq OK false v _ Hv W))).
  intros y l [HA HD]. cbn. exists (pc d), (get_ir (inc_r d)), v, (buses l). split; [reflexivity|]. split; [exact Hv|].
  destruct HA as (W' & HA). 
  assert (C := exec_ctl ch absq v _ y _ _ Hv HD (conj W' HA)). split; [apply (ic_ei _ _ _ _ _ C)|].
  split; [apply (ic_halt _ _ _ _ _ C)|exact W'].
Qed.
Lemma loop_ctl s : wfst s -> wpl (loop_instr FL s) (fun x l => exists p i v bl, buses l = VOp p i v :: bl /\ isbyte v /\
  wfst (fst x) /\ last_ei (sc (fst x)) = (last_ei (sc s) || (v =? 0xFB)) /\ (snd x = Some EnableInt <-> v = 0xFB) /\
  (snd x = Some Halt <-> v = 0x76) /\ snd x <> Some LimitReached /\ snd x <> Some Irq /\
  (snd x = Some Halt -> halt (sc (fst x)) = true)).
Proof.
  intros Hs. refine (wpl_mono _ _ _ _ (loop_instr_isa FL ch absq OK s Hs)).
  intros x l (W & HD & o & Ho & HA). unfold fetch in HA. cbv zeta in HA. apply acc_m1 in HA.
  destruct HA as (v & bl & cl & EB & _ & HA). rewrite EB in HD. inversion HD as [|? ? D1 D2]; subst.
  do 2 eexists. exists v, bl. split; [exact EB|]. split; [exact D1|]. split; [exact W|].
  apply exec_control in HA; [|assumption..]. destruct HA as (_ & H2 & H3 & _ & _ & _ & H7 & H8).
  split; [exact H2|].
  assert (H9 : o = OHalt -> halt (sc (fst x)) = true).
  { intros X. change (aHALT (abs2 absq (fst x)) = true). rewrite H3. apply H7 in X. rewrite X. apply orb_true_r. }
  rewrite Ho, <- H7, <- H8. clear - H9. destruct o; cbn; (split; [|split; [|split; [|split]]]); try split; try congruence; auto.
Qed.

Notation host := (host TS WB RB).
(** An instruction of the loop and of [execute_next] on the same host. *)
Lemma ins_eq {BS CK} (Hs : host BS CK) s d e b k : wfst s -> wf d -> halt d = false -> store_st s = set_last_ei e d ->
  exists s' x d' b' k' l,
    runl Hs (loop_instr FL s) b k = Some ((s', x), b', k', l) /\
    runl Hs (ins d) b k = Some ((d', to_result x), b', k', l) /\
    wfst s' /\ wf d' /\ (exists e', store_st s' = set_last_ei e' d') /\
    (x = Some EnableInt -> last_ei d' = true /\ store_st s' = d') /\
    (x <> Some EnableInt -> last_ei d' = false /\ last_ei (sc s') = last_ei (sc s)) /\
    (halt d' = true <-> x = Some Halt) /\ x <> Some LimitReached /\ x <> Some Irq.
Proof.
  intros Ws Wd Hh HS.
  destruct (wpl_run Hs _ _ b k (loop_ctl s Ws)) as ([s' x] & b' & k' & l & E1 & p & i & v & bl & EB & Hv & Ws' & L1 & L2 & L3 & L4 & L5 & _).
  destruct (lsim_runl _ _ _ _ _ (ins_lsim s d e Ws Hh HS) _ _ Hs b k _ _ _ _ E1) as ([d' y] & E2 & HR & e' & HE).
  { apply Forall_forall. intros ev _. now destruct ev. }
  destruct (wpl_at _ _ _ _ Hs b k _ _ _ _ (ins_ctl d Wd) E2) as (p2 & i2 & v2 & bl2 & EB2 & _ & D1 & D2 & Wd').
  cbn [fst snd] in *. rewrite EB in EB2. injection EB2 as <- <- <- <-. subst y.
  exists s', x, d', b', k', l. split; [exact E1|]. split; [exact E2|]. split; [exact Ws'|]. split; [exact Wd'|].
  split; [now exists e'|].
  assert (LS : last_ei (sc s') = e') by (change (last_ei (store_st s') = e'); now rewrite HE).
  split; [|split; [|split; [|split; [exact L4|exact L5]]]].
  - intros HX. apply L2 in HX. subst v. rewrite Z.eqb_refl in *. split; [exact D1|]. rewrite orb_true_r in L1.
    rewrite HE, <- LS, L1, <- D1. apply set_ei_self.
  - intros HX. assert (NV : (v =? 0xFB) = false) by (apply Z.eqb_neq; tauto). rewrite NV in *. split; [exact D1|].
    now rewrite orb_false_r in L1.
  - rewrite D2, Z.eqb_eq. symmetry. exact L3.
Qed.
(** Accepting an interrupt does not depend on the "after EI" flag. *)
Lemma irq_ei_ls e c : lsim eq eq (fun _ => True) (fun _ => True) eq
  (irq_no_check (TS:=TS) (WB:=WB) (RB:=RB) FL false c) (irq_no_check FL false (set_last_ei e c)).
Proof.
  assert (X : forall v c1 c2, set_last_ei false c1 = set_last_ei false c2 ->
    execute_instruction (TS:=TS) (WB:=WB) (RB:=RB) FL false v c1 = execute_instruction FL false v c2).
  { intros v c1 c2 H. unfold execute_instruction. rewrite H. reflexivity. }
  unfold irq_no_check. cbv zeta.
  change (halt (inc_r (disable_interrupts (set_last_ei e c)))) with (halt c).
  change (halt (inc_r (disable_interrupts c))) with (halt c).
  assert (G : forall c1 p, lsim (TS:=TS) (WB:=WB) (RB:=RB) eq eq (fun _ => True) (fun _ => True) eq
      (AddIrq p (fun ts => IrqData p ts (fun vector ws =>
        let k := match im c1 with
          | Mode0 => execute_instruction FL false vector c1
          | Mode1 => execute_instruction FL false RST_38H_OPCODE c1
          | Mode2 => AddNoMreq (get_ir c1) 1 (pbind (on_cpu (push16 p) c1) (fun x =>
              execute_instruction FL false JP_OPCODE (set_pc (Z.lor (Z.land (get_ir c1) 0xFF00) vector) (fst x)))) end in
        match ws with Some n => AddWait p n k | None => k end)))
      (AddIrq p (fun ts => IrqData p ts (fun vector ws => let c2 := set_last_ei e c1 in
        let k := match im c2 with
          | Mode0 => execute_instruction FL false vector c2
          | Mode1 => execute_instruction FL false RST_38H_OPCODE c2
          | Mode2 => AddNoMreq (get_ir c2) 1 (pbind (on_cpu (push16 p) c2) (fun x =>
              execute_instruction FL false JP_OPCODE (set_pc (Z.lor (Z.land (get_ir c2) 0xFF00) vector) (fst x)))) end in
        match ws with Some n => AddWait p n k | None => k end)))).
  { intros c1 p. constructor. intros t. constructor. intros v ws _. cbv zeta.
    change (im (set_last_ei e c1)) with (im c1). change (get_ir (set_last_ei e c1)) with (get_ir c1).
    rewrite !(X _ (set_last_ei e c1) c1 eq_refl).
    assert (K : lsim (TS:=TS) (WB:=WB) (RB:=RB) eq eq (fun _ => True) (fun _ => True) eq
      (match im c1 with
          | Mode0 => execute_instruction FL false v c1
          | Mode1 => execute_instruction FL false RST_38H_OPCODE c1
          | Mode2 => AddNoMreq (get_ir c1) 1 (pbind (on_cpu (push16 p) c1) (fun x =>
              execute_instruction FL false JP_OPCODE (set_pc (Z.lor (Z.land (get_ir c1) 0xFF00) v) (fst x)))) end)
      (match im c1 with
          | Mode0 => execute_instruction FL false v c1
          | Mode1 => execute_instruction FL false RST_38H_OPCODE c1
          | Mode2 => AddNoMreq (get_ir c1) 1 (pbind (on_cpu (push16 p) (set_last_ei e c1)) (fun x =>
              execute_instruction FL false JP_OPCODE (set_pc (Z.lor (Z.land (get_ir c1) 0xFF00) v) (fst x)))) end)).
    { destruct (im c1); [apply lsim_refl..|]. constructor. unfold on_cpu, push16, push2.
      cbn -[execute_instruction get_ir u16 hi8 lo8 set_pc set_sp]. repeat (constructor; intros).
      match goal with |- Lock.lsim _ _ _ _ _ (execute_instruction _ _ ?v ?x) (execute_instruction _ _ _ ?y) =>
        rewrite (X v x y eq_refl) end. apply lsim_refl. }
    destruct ws; [constructor|]; exact K. }
  destruct (halt c); apply G.
Qed.
Lemma irq_total c {BS CK} (Hs : host BS CK) b k : wf c -> exists (y : cpu Q * result WB RB) b' k' l,
  runl Hs (irq_no_check FL false c) b k = Some (y, b', k', l) /\ wf (fst y) /\ exists v t w p l', l = KIrq p t :: EIrqData p t v w :: l' /\
    is_irq_allowed (fst y) = false /\ (last_ei (fst y) = true -> v = 0xFB) /\ (halt (fst y) = true <-> snd y = Some BHalt).
Proof.
  intros Hw.
  destruct (wpl_run Hs _ _ b k (wpl_bytes _ _ (irq_no_check_isa FL ch absq OK false c Hw))) as (y & b' & k' & l & E & (W & o & Ho & HA) & HD).
  exists y, b', k', l. split; [exact E|]. split; [exact W|].
  destruct (int_control ch _ _ _ _ _ HD HA) as (p & v & w & bl & EB & Hv & _ & H1 & H2 & H3 & _ & _ & H4 & _).
  assert (EL : exists p t w v l', l = KIrq p t :: EIrqData p t v w :: l').
  { revert E. unfold irq_no_check. cbv zeta. destruct (halt (inc_r (disable_interrupts c))); cbn [runl].
    all: repeat match goal with |- context [let (_, _) := ?x in _] => destruct x end; cbn [runl];
      repeat match goal with |- context [let (_, _) := ?x in _] => destruct x end.
    all: match goal with |- cons_log _ (cons_log _ ?r) = _ -> _ => destruct r as [[[[? ?] ?] ?]|] end; cbn [cons_log]; [|discriminate].
    all: intros E; injection E as <- <- <- <-; do 5 eexists; reflexivity. }
  destruct EL as (p2 & t & w2 & v2 & l' & ->). cbn in EB. injection EB as EP EV EW EB. subst p2 v2.
  exists v, t, w2, p, l'. split; [reflexivity|].
  change (aIFF1 (abs absq (fst y))) with (iff1 (fst y)) in H1. change (aEI (abs absq (fst y))) with (last_ei (fst y)) in H2.
  change (aHALT (abs absq (fst y))) with (halt (fst y)) in H3. split; [|split].
  - unfold is_irq_allowed, is_int_allowed. rewrite H1, H2. destruct (aIM _); [destruct (v =? 0xFB)|..]; cbn; auto.
    destruct (prefix (fst y)); reflexivity.
  - rewrite H2. destruct (aIM _); [now rewrite Z.eqb_eq|discriminate..].
  - rewrite H3, Ho, res_halt, H4. destruct (aIM _); [rewrite Z.eqb_eq; tauto|..]; split; try discriminate; intros [? _]; discriminate.
Qed.
Lemma irq_ei {BS CK} (Hs : host BS CK) e c b k : wf c ->
  runl Hs (irq_no_check FL false (set_last_ei e c)) b k = runl Hs (irq_no_check FL false c) b k.
Proof.
  intros Hw. destruct (irq_total c Hs b k Hw) as (y & b' & k' & l & E & _). rewrite E.
  destruct (lsim_runl _ _ _ _ _ (irq_ei_ls e c) _ _ Hs b k _ _ _ _ E) as (y' & E' & <-); [|exact E'].
  apply Forall_forall. intros ev _. now destruct ev.
Qed.
Definition insk (m : nat) d : prog (option (cpu Q * result WB RB)) := pbind (ins d) (cont m).
Section Host.
Context {BS CK : Type} (Hs : host BS CK).
Notation res X := (option (X * BS * CK * log)).
(** Log [l] first. *)
Definition after {X} (l : log) (x : res X) : res X :=
  match x with Some (y, b, k, l') => Some (y, b, k, l ++ l') | None => None end.
Lemma after_cons {X} e l (x : res X) : cons_log e (after l x) = after (e :: l) x.
Proof. destruct x as [[[[? ?] ?] ?]|]; reflexivity. Qed.
Lemma after_nil {X} (x : res X) : after [] x = x.
Proof. destruct x as [[[[? ?] ?] ?]|]; reflexivity. Qed.
Lemma after_app {X} l l' (x : res X) : after l (after l' x) = after (l ++ l') x.
Proof. destruct x as [[[[? ?] ?] ?]|]; cbn; [now rewrite app_assoc|reflexivity]. Qed.
Lemma cons_after {X} e (x : res X) : cons_log e x = after [e] x.
Proof. destruct x as [[[[? ?] ?] ?]|]; reflexivity. Qed.
Lemma runl_after {X Y} (p : prog X) (f : X -> prog Y) b k x b' k' l :
  runl Hs p b k = Some (x, b', k', l) -> runl Hs (pbind p f) b k = after l (runl Hs (f x) b' k').
Proof. intros E. rewrite runl_bind, E. reflexivity. Qed.
(** One step of [drive] from a state that is not halted. *)
Definition sample b k : BS * bool * log :=
  let t := h_as_ts Hs k in let x := h_is_irq Hs b t in (fst x, snd x, [KTs t; EIsIrq t (snd x)]).
Lemma test_run {X} a (f : bool -> prog X) b k :
  runl Hs (test_irq a f) b k =
  if a then (let '(b1, q, l) := sample b k in after l (runl Hs (f q) b1 k)) else runl Hs (f false) b k.
Proof.
  unfold test_irq, sample. destruct a; [|reflexivity]. cbn [runl]. cbv zeta.
  destruct (h_is_irq Hs b (h_as_ts Hs k)) as [b1 q]. cbn [fst snd].
  destruct (runl Hs (f q) b1 k) as [[[[? ?] ?] ?]|]; reflexivity.
Qed.
Lemma past_run {X} (f : bool -> prog X) b k :
  runl Hs (IsPastLimit f) b k = after [KPast (h_is_past_limit Hs k)] (runl Hs (f (h_is_past_limit Hs k)) b k).
Proof. cbn [runl]. cbv zeta. apply cons_after. Qed.
Lemma pbind_test {X Y} a (f : bool -> prog X) (g : X -> prog Y) b k :
  runl Hs (pbind (test_irq a f) g) b k = runl Hs (test_irq a (fun q => pbind (f q) g)) b k.
Proof. unfold test_irq. destruct a; reflexivity. Qed.
Lemma drive_run m d b k :
  runl Hs (drive FL (S m) d) b k = after [KPast (h_is_past_limit Hs k)]
   (if h_is_past_limit Hs k then Some (Some (d, None), b, k, [])
    else if is_irq_allowed d then (let '(b1, q, l) := sample b k in after l
      (runl Hs (pbind (if q then irq_no_check FL false d else if halt d then AddM1 (pc d) (fun _ => Ret (inc_r d, None)) else ins d) (cont m)) b1 k))
    else if halt d then runl Hs (pbind (AddM1 (pc d) (fun _ => Ret (inc_r d, None))) (cont m)) b k
    else runl Hs (insk m d) b k).
Proof.
  cbn [drive]. rewrite past_run. f_equal. destruct (h_is_past_limit Hs k); [reflexivity|].
  unfold execute_next. change (fun x : cpu Q * result WB RB => match snd x with None => drive FL m (fst x) | Some e => Ret (Some (fst x, Some e)) end) with (cont m).
  rewrite pbind_test, test_run. destruct (is_irq_allowed d).
  - destruct (sample b k) as [[b1 q] l]. reflexivity.
  - destruct (halt d); reflexivity.
Qed.

Definition unfinished {X} (r : res (option X)) : Prop := match r with Some (None, _, _, _) => True | _ => False end.
Lemma unfinished_after {X} l (r : res (option X)) : unfinished r -> unfinished (after l r).
Proof. destruct r as [[[[[?|] ?] ?] ?]|]; cbn; auto. Qed.
Definition same_ei (P : Prop) c d : Prop := c = d \/ (c = set_last_ei true d /\ P).
(** A state of the loop and of [drive] about to fetch an instruction. *)
Record linked (P : Prop) s d : Prop := mkLinked {
  ln_s : wfst s; ln_d : wf d; ln_h : halt d = false; ln_e : exists e, store_st s = set_last_ei e d;
  ln_p : last_ei (sc s) = true -> P }.
Inductive macro (P : Prop) s d b k : Prop :=
| mac_end c' d' r b' k' l j : same_ei (P \/ Exists fb_ack l) c' d' ->
    (forall n, runl Hs (ewl_loop FL (S n) s) b k = Some (Some (c', r), b', k', l)) ->
    (forall m, runl Hs (insk (j + m) d) b k = Some (Some (d', r), b', k', l)) ->
    (forall m, (m < j)%nat -> unfinished (runl Hs (insk m d) b k)) -> macro P s d b k
| mac_go (P' : Prop) s' d' b' k' l j : (P' -> P \/ Exists fb_ack l) -> linked P' s' d' ->
    (forall n, runl Hs (ewl_loop FL (S n) s) b k = after l (runl Hs (ewl_loop FL n s') b' k')) ->
    (forall m, runl Hs (insk (S j + m) d) b k = after l (runl Hs (insk m d') b' k')) ->
    (forall m, (m < S j)%nat -> unfinished (runl Hs (insk m d) b k)) -> macro P s d b k.
Lemma store_load c : wf c -> store_st (load_st c) = c.
Proof.
  intros Hw. unfold store_st, load_st. cbn [sc sfl spc spx]. rewrite set_get_flags by exact Hw. now destruct c.
Qed.
Lemma macro_step P s d b k : linked P s d -> macro P s d b k.
Proof.
  intros [Ws Wd Hh [e He] HP].
  destruct (ins_eq Hs s d e b k Ws Wd Hh He) as (s' & x & d' & b' & k' & l & E1 & E2 & Ws' & Wd' & [e' He'] & HX1 & HX2 & HX3 & HX4 & HX5).
  assert (LS : last_ei (sc s') = e') by (change (last_ei (store_st s') = e'); now rewrite He').
  assert (F1 : forall n, runl Hs (ewl_loop FL (S n) s) b k = after l (runl Hs
     (match x with
      | None =>
          IsPastLimit (fun past =>
          if past then Ret (Some (store_st s', None))
          else
            test_irq (is_int_allowed (spx s') false && iff1 (sc s')) (fun q =>
            if q then
              pbind (irq_no_check FL false (store_st s')) (fun y =>
              match snd y with
              | None => IsPastLimit (fun past =>
                          if past then Ret (Some (fst y, None)) else ewl_loop FL n (load_st (fst y)))
              | Some e => Ret (Some (fst y, Some e))
              end)
            else ewl_loop FL n s'))
      | Some EnableInt =>
          IsPastLimit (fun past =>
          if past then Ret (Some (store_st s', None))
          else ewl_loop FL n (mkSt (set_last_ei false (sc s')) (sfl s') (spc s') (spx s')))
      | Some r => Ret (Some (store_st s', to_result (Some r)))
      end) b' k')) by (intros n; exact (runl_after _ _ _ _ _ _ _ _ E1)).
  assert (F2 : forall m, runl Hs (insk m d) b k = after l (runl Hs (cont m (d', to_result x)) b' k'))
    by (intros m; exact (runl_after _ _ _ _ _ _ _ _ E2)).
  assert (SE : x <> Some EnableInt -> same_ei P (store_st s') d').
  { intros N. destruct (HX2 N) as [X1 X2]. rewrite He'. destruct e'.
    - right. split; [reflexivity|]. apply HP. congruence.
    - left. rewrite <- X1. apply set_ei_self. }
  assert (SL : forall (l' : log) (c1 c2 : cpu Q), same_ei P c1 c2 -> same_ei (P \/ Exists fb_ack l') c1 c2)
    by (intros l' c1 c2 [X|[X Y]]; [left|right]; auto).
  destruct x as [x|].
  - assert (BRK : x <> EnableInt -> (exists e1, to_result (Some x) = Some e1) -> macro P s d b k).
    { intros N [e1 EE]. apply (mac_end P s d b k (store_st s') d' (to_result (Some x)) b' k' l 0%nat).
      - apply SL, SE. congruence.
      - intros n. rewrite F1. destruct x; try discriminate EE; cbn; now rewrite app_nil_r.
      - intros m. rewrite F2. rewrite EE. cbn. now rewrite app_nil_r.
      - intros m Hm. lia. }
    destruct x; try (apply BRK; [discriminate|eexists; reflexivity]); try congruence.
    clear BRK. destruct (HX1 eq_refl) as [X1 X2].
    assert (NH : halt d' = false) by (destruct (halt d'); [destruct HX3 as [HX3 _]; discriminate (HX3 eq_refl)|reflexivity]).
    assert (NA : is_irq_allowed d' = false) by (unfold is_irq_allowed, is_int_allowed; rewrite X1; now destruct (iff1 d'), (prefix d')).
    destruct (h_is_past_limit Hs k') eqn:EP.
    + apply (mac_end P s d b k d' d' None b' k' (l ++ [KPast true]) 1%nat).
      * now left.
      * intros n. rewrite F1, past_run, EP. cbn. now rewrite X2.
      * intros m. rewrite F2. unfold cont. cbn [snd to_result fst Nat.add]. rewrite drive_run, EP. reflexivity.
      * intros m Hm. assert (m = O) by lia. subst m. rewrite F2. apply unfinished_after. exact I.
    + apply (mac_go P s d b k False (mkSt (set_last_ei false (sc s')) (sfl s') (spc s') (spx s')) d' b' k' (l ++ [KPast false]) 0%nat).
      * intros [].
      * constructor; auto.
        -- destruct Ws' as (A1 & A2 & A3). split; [|split]; cbn [sc sfl spc]; auto with rng.
        -- exists false. rewrite <- X2. reflexivity.
        -- discriminate.
      * intros n. rewrite F1, past_run, EP, after_app. reflexivity.
      * intros m. rewrite F2. unfold cont. cbn [snd to_result fst Nat.add]. rewrite drive_run, EP, NA, NH, after_app. reflexivity.
      * intros m Hm. assert (m = O) by lia. subst m. rewrite F2. apply unfinished_after. exact I.
  - destruct (HX2 ltac:(discriminate)) as [X1 X2]. specialize (SE ltac:(discriminate)).
    assert (NH : halt d' = false) by (destruct (halt d'); [destruct HX3 as [HX3 _]; discriminate (HX3 eq_refl)|reflexivity]).
    assert (AE : is_irq_allowed d' = is_int_allowed (spx s') false && iff1 (sc s')).
    { unfold is_irq_allowed. rewrite X1. change (spx s') with (prefix (store_st s')). change (iff1 (sc s')) with (iff1 (store_st s')).
      rewrite He'. cbn. apply andb_comm. }
    rewrite <- AE in F1. clear AE HX1 HX2 HX3.
    destruct (h_is_past_limit Hs k') eqn:EP.
    + apply (mac_end P s d b k (store_st s') d' None b' k' (l ++ [KPast true]) 1%nat).
      * now apply SL.
      * intros n. rewrite F1, past_run, EP. reflexivity.
      * intros m. rewrite F2. unfold cont. cbn [snd to_result fst Nat.add]. rewrite drive_run, EP. reflexivity.
      * intros m Hm. assert (m = O) by lia. subst m. rewrite F2. apply unfinished_after. exact I.
    + assert (G0 : forall m, runl Hs (insk (S m) d) b k = after (l ++ [KPast false])
        (if is_irq_allowed d' then (let '(b1, q, l) := sample b' k' in after l
          (runl Hs (pbind (if q then irq_no_check FL false d' else ins d') (cont m)) b1 k'))
         else runl Hs (insk m d') b' k')).
      { intros m. rewrite F2. unfold cont at 1. cbn [snd to_result fst]. rewrite drive_run, EP, NH, after_app. reflexivity. }
      assert (U0 : unfinished (runl Hs (insk 0 d) b k)) by (rewrite F2; apply unfinished_after; exact I).
      assert (PLAIN : forall b1 l1, 
         (forall n, runl Hs (ewl_loop FL (S n) s) b k = after l1 (runl Hs (ewl_loop FL n s') b1 k')) ->
         (forall m, runl Hs (insk (S m) d) b k = after l1 (runl Hs (insk m d') b1 k')) -> macro P s d b k).
      { intros b1 l1 G1 G2. apply (mac_go P s d b k P s' d' b1 k' l1 0%nat); auto.
        - constructor; auto; [now exists e'|]. rewrite X2. exact HP.
        - intros m Hm. assert (m = O) by lia. subst m. exact U0. }
      destruct (is_irq_allowed d') eqn:EA.
      2: { apply (PLAIN b' (l ++ [KPast false])); [|exact G0].
           intros n. rewrite F1, past_run, EP, test_run, after_app. reflexivity. }
      destruct (sample b' k') as [[b1 q] l1] eqn:ES. destruct q.
      2: { apply (PLAIN b1 ((l ++ [KPast false]) ++ l1)).
           - intros n. rewrite F1, past_run, EP, test_run, ES, !after_app. reflexivity.
           - intros m. rewrite G0, after_app. reflexivity. }
      clear PLAIN.
      destruct (irq_total d' Hs b1 k' Wd') as ([c2 u] & b2 & k2 & l2 & E3 & W3 & v & t & w & p & l3 & EL & NA & HV & HT).
      cbn [fst snd] in *.
      assert (E4 : runl Hs (irq_no_check FL false (store_st s')) b1 k' = Some ((c2, u), b2, k2, l2))
        by (rewrite He', irq_ei; assumption).
      assert (EX : v = 0xFB -> forall la lb, Exists fb_ack (la ++ l2 ++ lb)).
      { intros -> la lb. apply Exists_app. right. rewrite EL. cbn [app]. right. left. reflexivity. }
      set (l0 := (l ++ [KPast false]) ++ l1) in *.
      assert (G1 : forall n, runl Hs (ewl_loop FL (S n) s) b k = after (l0 ++ l2) (runl Hs
        (match u with
              | None => IsPastLimit (fun past =>
                          if past then Ret (Some (c2, None)) else ewl_loop FL n (load_st c2))
              | Some e => Ret (Some (c2, Some e))
              end) b2 k2)).
      { intros n. rewrite F1, past_run, EP, test_run, ES, !after_app. fold l0.
        rewrite (runl_after _ _ _ _ _ _ _ _ E4), after_app. reflexivity. }
      assert (G2 : forall m, runl Hs (insk (S m) d) b k = after (l0 ++ l2) (runl Hs (cont m (c2, u)) b2 k2)).
      { intros m. rewrite G0, after_app. fold l0. rewrite (runl_after _ _ _ _ _ _ _ _ E3), after_app. reflexivity. }
      clear F1 F2 G0 E3 E4.
      destruct u as [u|].
      * apply (mac_end P s d b k c2 c2 (Some u) b2 k2 (l0 ++ l2) 1%nat).
        -- now left.
        -- intros n. rewrite G1. cbn. now rewrite app_nil_r.
        -- intros m. cbn [Nat.add]. rewrite G2. cbn. now rewrite app_nil_r.
        -- intros m Hm. assert (m = O) by lia. subst m. exact U0.
      * assert (NH2 : halt c2 = false) by (destruct (halt c2); [destruct HT as [HT _]; discriminate (HT eq_refl)|reflexivity]).
        assert (U1 : forall m, (m < 2)%nat -> unfinished (runl Hs (insk m d) b k)).
        { intros [|m] Hm; [exact U0|]. rewrite G2. apply unfinished_after. assert (m = O) by lia. subst m. exact I. }
        destruct (h_is_past_limit Hs k2) eqn:EP2.
        -- apply (mac_end P s d b k c2 c2 None b2 k2 ((l0 ++ l2) ++ [KPast true]) 2%nat); auto.
           ++ now left.
           ++ intros n. rewrite G1, past_run, EP2. reflexivity.
           ++ intros m. cbn [Nat.add]. rewrite G2. unfold cont. cbn [snd fst]. rewrite drive_run, EP2. reflexivity.
        -- apply (mac_go P s d b k (v = 0xFB) (load_st c2) c2 b2 k2 ((l0 ++ l2) ++ [KPast false]) 1%nat); auto.
           ++ intros HF. right. rewrite <- app_assoc. now apply EX.
           ++ constructor; auto; [now apply wf_load|]. exists (last_ei c2). rewrite set_ei_self. now apply store_load.
           ++ intros n. rewrite G1, past_run, EP2, after_app. reflexivity.
           ++ intros m. cbn [Nat.add]. rewrite G2. unfold cont. cbn [snd fst]. rewrite drive_run, EP2, NA, NH2, after_app. reflexivity.
Qed.

(** Both sides deliver the same results (up to fuel). *)
Definition done_with (f : nat -> res (option (cpu Q * result WB RB))) c r b k l : Prop :=
  exists n, forall n', (n <= n')%nat -> f n' = Some (Some (c, r), b, k, l).
Definition finishes (f : nat -> res (option (cpu Q * result WB RB))) c r b k l : Prop :=
  exists n, f n = Some (Some (c, r), b, k, l).
Record agree (P : Prop) (f g : nat -> res (option (cpu Q * result WB RB))) : Prop := mkAgree {
  ag_fwd c r b k l : finishes f c r b k l -> done_with f c r b k l /\
     exists d, done_with g d r b k l /\ same_ei (P \/ Exists fb_ack l) c d;
  ag_bwd d r b k l : finishes g d r b k l -> done_with g d r b k l /\
     exists c, done_with f c r b k l /\ same_ei (P \/ Exists fb_ack l) c d }.
Lemma done_end f j c r b k l : (forall n, f (j + n)%nat = Some (Some (c, r), b, k, l)) -> done_with f c r b k l.
Proof. intros H. exists j. intros n Hn. replace n with (j + (n - j))%nat by lia. apply H. Qed.
Lemma done_go f g j c r b k l l' : (forall n, f (j + n)%nat = after l (g n)) ->
  done_with g c r b k l' -> done_with f c r b k (l ++ l').
Proof.
  intros H [n G]. exists (j + n)%nat. intros n' Hn. replace n' with (j + (n' - j))%nat by lia.
  rewrite H, G by lia. reflexivity.
Qed.
Lemma finishes_split f g j c r b k l l' : (forall n, f (j + n)%nat = after l (g n)) ->
  (forall n, (n < j)%nat -> unfinished (f n)) -> finishes f c r b k l' ->
  exists l2, l' = l ++ l2 /\ finishes g c r b k l2.
Proof.
  intros H U [n F]. destruct (Nat.lt_ge_cases n j) as [L|L].
  - specialize (U n L). rewrite F in U. destruct U.
  - replace n with (j + (n - j))%nat in F by lia. rewrite H in F.
    destruct (g (n - j)%nat) as [[[[y b1] k1] l1]|] eqn:E; [|discriminate F]. cbn in F.
    injection F as -> -> -> <-. exists l1. split; [reflexivity|]. now exists (n - j)%nat.
Qed.
Lemma finishes_end f j c r b k l c' r' b' k' l' : (forall n, f (j + n)%nat = Some (Some (c, r), b, k, l)) ->
  (forall n, (n < j)%nat -> unfinished (f n)) -> finishes f c' r' b' k' l' ->
  c' = c /\ r' = r /\ b' = b /\ k' = k /\ l' = l.
Proof.
  intros H U [n F]. destruct (Nat.lt_ge_cases n j) as [L|L].
  - specialize (U n L). rewrite F in U. destruct U.
  - replace n with (j + (n - j))%nat in F by lia. rewrite H in F. now injection F as -> -> -> -> ->.
Qed.
Lemma agree_end P f g i j c d r b k l : same_ei (P \/ Exists fb_ack l) c d ->
  (forall n, f (i + n)%nat = Some (Some (c, r), b, k, l)) -> (forall n, (n < i)%nat -> unfinished (f n)) ->
  (forall m, g (j + m)%nat = Some (Some (d, r), b, k, l)) -> (forall n, (n < j)%nat -> unfinished (g n)) ->
  agree P f g.
Proof.
  intros HS F1 F2 G1 G2. constructor; intros c' r' b' k' l' X.
  - destruct (finishes_end _ _ _ _ _ _ _ _ _ _ _ _ F1 F2 X) as (-> & -> & -> & -> & ->).
    split; [exact (done_end _ _ _ _ _ _ _ F1)|]. exists d. split; [exact (done_end _ _ _ _ _ _ _ G1)|exact HS].
  - destruct (finishes_end _ _ _ _ _ _ _ _ _ _ _ _ G1 G2 X) as (-> & -> & -> & -> & ->).
    split; [exact (done_end _ _ _ _ _ _ _ G1)|]. exists c. split; [exact (done_end _ _ _ _ _ _ _ F1)|exact HS].
Qed.
Lemma same_ei_log P (P' : Prop) (l l2 : log) c d : (P' -> P \/ Exists fb_ack l) ->
  same_ei (P' \/ Exists fb_ack l2) c d -> same_ei (P \/ Exists fb_ack (l ++ l2)) c d.
Proof.
  intros HP [X|[X Y]]; [now left|right]. split; [exact X|]. destruct Y as [Y|Y].
  - destruct (HP Y) as [Z|Z]; [now left|right]. apply Exists_app. now left.
  - right. apply Exists_app. now right.
Qed.
Lemma agree_go P (P' : Prop) f g f' g' i j l : (P' -> P \/ Exists fb_ack l) -> agree P' f' g' ->
  (forall n, f (i + n)%nat = after l (f' n)) -> (forall n, (n < i)%nat -> unfinished (f n)) ->
  (forall m, g (j + m)%nat = after l (g' m)) -> (forall n, (n < j)%nat -> unfinished (g n)) ->
  agree P f g.
Proof.
  intros HP [A B] F1 F2 G1 G2. constructor; intros c' r' b' k' l' X.
  - destruct (finishes_split _ _ _ _ _ _ _ _ _ F1 F2 X) as (l2 & -> & Y).
    destruct (A _ _ _ _ _ Y) as (Y1 & d & Y2 & Y3). split; [exact (done_go _ _ _ _ _ _ _ _ _ F1 Y1)|].
    exists d. split; [exact (done_go _ _ _ _ _ _ _ _ _ G1 Y2)|]. exact (same_ei_log _ _ _ _ _ _ HP Y3).
  - destruct (finishes_split _ _ _ _ _ _ _ _ _ G1 G2 X) as (l2 & -> & Y).
    destruct (B _ _ _ _ _ Y) as (Y1 & d & Y2 & Y3). split; [exact (done_go _ _ _ _ _ _ _ _ _ G1 Y1)|].
    exists d. split; [exact (done_go _ _ _ _ _ _ _ _ _ F1 Y2)|]. exact (same_ei_log _ _ _ _ _ _ HP Y3).
Qed.
Lemma loop_fwd n : forall P s d b k c' r b' k' l, linked P s d ->
  runl Hs (ewl_loop FL n s) b k = Some (Some (c', r), b', k', l) ->
  done_with (fun n => runl Hs (ewl_loop FL n s) b k) c' r b' k' l /\
  exists d', done_with (fun m => runl Hs (insk m d) b k) d' r b' k' l /\ same_ei (P \/ Exists fb_ack l) c' d'.
Proof.
  induction n as [|n IH]; intros P s d b k c' r b' k' l LK E; [discriminate E|].
  destruct (macro_step P s d b k LK) as [c1 d1 r1 b1 k1 l1 j HS F1 G1 G2|P' s1 d1 b1 k1 l1 j HP LK' F1 G1 G2].
  - rewrite F1 in E. injection E as <- <- <- <- <-.
    split; [exact (done_end _ 1 _ _ _ _ _ F1)|]. exists d1. split; [exact (done_end _ _ _ _ _ _ _ G1)|exact HS].
  - rewrite F1 in E. destruct (runl Hs (ewl_loop FL n s1) b1 k1) as [[[[y b2] k2] l2]|] eqn:E1; [|discriminate E].
    cbn in E. injection E as -> -> -> <-.
    destruct (IH _ _ _ _ _ _ _ _ _ _ LK' E1) as (Y1 & d' & Y2 & Y3).
    split; [exact (done_go _ _ 1 _ _ _ _ _ _ F1 Y1)|].
    exists d'. split; [exact (done_go _ _ (S j) _ _ _ _ _ _ G1 Y2)|]. exact (same_ei_log _ _ _ _ _ _ HP Y3).
Qed.
Lemma loop_bwd m : forall P s d b k d' r b' k' l, linked P s d ->
  runl Hs (insk m d) b k = Some (Some (d', r), b', k', l) ->
  done_with (fun m => runl Hs (insk m d) b k) d' r b' k' l /\
  exists c', done_with (fun n => runl Hs (ewl_loop FL n s) b k) c' r b' k' l /\ same_ei (P \/ Exists fb_ack l) c' d'.
Proof.
  induction m as [m IH] using lt_wf_ind. intros P s d b k d' r b' k' l LK E.
  destruct (macro_step P s d b k LK) as [c1 d1 r1 b1 k1 l1 j HS F1 G1 G2|P' s1 d1 b1 k1 l1 j HP LK' F1 G1 G2].
  - destruct (finishes_end (fun m => runl Hs (insk m d) b k) _ _ _ _ _ _ _ _ _ _ _ G1 G2 (ex_intro _ m E)) as (-> & -> & -> & -> & ->).
    split; [exact (done_end (fun m => runl Hs (insk m d) b k) _ _ _ _ _ _ G1)|].
    exists c1. split; [exact (done_end _ 1 _ _ _ _ _ F1)|exact HS].
  - destruct (Nat.lt_ge_cases m (S j)) as [L|L].
    { specialize (G2 m L). rewrite E in G2. destruct G2. }
    pose proof (G1 (m - S j)%nat) as G3. replace (S j + (m - S j))%nat with m in G3 by lia. rewrite E in G3.
    destruct (runl Hs (insk (m - S j) d1) b1 k1) as [[[[y b2] k2] l2]|] eqn:E1; [|discriminate G3].
    cbn in G3. injection G3 as <- <- <- ->.
    destruct (IH (m - S j)%nat ltac:(lia) _ _ _ _ _ _ _ _ _ _ LK' E1) as (Y1 & c' & Y2 & Y3).
    split; [exact (done_go _ _ (S j) _ _ _ _ _ _ G1 Y1)|].
    exists c'. split; [exact (done_go _ _ 1 _ _ _ _ _ _ F1 Y2)|]. exact (same_ei_log _ _ _ _ _ _ HP Y3).
Qed.
Lemma loop_agree P s d b k : linked P s d ->
  agree P (fun n => runl Hs (ewl_loop FL n s) b k) (fun m => runl Hs (insk m d) b k).
Proof.
  intros LK. constructor; intros c r b' k' l [n E].
  - exact (loop_fwd n P s d b k c r b' k' l LK E).
  - exact (loop_bwd n P s d b k c r b' k' l LK E).
Qed.

(** An interrupt taken before the first instruction. *)
Lemma irq_agree d b k : wf d ->
  agree False
   (fun n => runl Hs (pbind (irq_no_check FL false d) (fun y =>
      match snd y with
      | None => IsPastLimit (fun past => if past then Ret (Some (fst y, None)) else ewl_loop FL n (load_st (fst y)))
      | Some e => Ret (Some (fst y, Some e))
      end)) b k)
   (fun m => runl Hs (pbind (irq_no_check FL false d) (cont m)) b k).
Proof.
  intros Wd.
  destruct (irq_total d Hs b k Wd) as ([c2 u] & b2 & k2 & l2 & E3 & W3 & v & t & w & p & l3 & EL & NA & HV & HT).
  cbn [fst snd] in *.
  assert (F1 : forall n, runl Hs (pbind (irq_no_check FL false d) (fun y =>
      match snd y with
      | None => IsPastLimit (fun past => if past then Ret (Some (fst y, None)) else ewl_loop FL n (load_st (fst y)))
      | Some e => Ret (Some (fst y, Some e))
      end)) b k = after l2 (runl Hs (match u with
      | None => IsPastLimit (fun past => if past then Ret (Some (c2, None)) else ewl_loop FL n (load_st c2))
      | Some e => Ret (Some (c2, Some e)) end) b2 k2)) by (intros n; exact (runl_after _ _ _ _ _ _ _ _ E3)).
  assert (G1 : forall m, runl Hs (pbind (irq_no_check FL false d) (cont m)) b k = after l2 (runl Hs (cont m (c2, u)) b2 k2))
    by (intros m; exact (runl_after _ _ _ _ _ _ _ _ E3)).
  destruct u as [u|].
  - apply (agree_end _ _ _ 0 0 c2 c2 (Some u) b2 k2 l2); try (intros; lia).
    + now left.
    + intros n. rewrite F1. cbn. now rewrite app_nil_r.
    + intros m. rewrite G1. cbn. now rewrite app_nil_r.
  - assert (NH2 : halt c2 = false) by (destruct (halt c2); [destruct HT as [HT _]; discriminate (HT eq_refl)|reflexivity]).
    assert (U : forall m, (m < 1)%nat -> unfinished (runl Hs (pbind (irq_no_check FL false d) (cont m)) b k)).
    { intros m Hm. assert (m = O) by lia. subst m. rewrite G1. apply unfinished_after. exact I. }
    destruct (h_is_past_limit Hs k2) eqn:EP2.
    + apply (agree_end _ _ _ 0 1 c2 c2 None b2 k2 (l2 ++ [KPast true])); try (intros; lia); auto.
      * now left.
      * intros n. rewrite F1, past_run, EP2. reflexivity.
      * intros m. rewrite G1. unfold cont. cbn [snd fst Nat.add]. rewrite drive_run, EP2. reflexivity.
    + apply (agree_go False (v = 0xFB) _ _ (fun n => runl Hs (ewl_loop FL n (load_st c2)) b2 k2) (fun m => runl Hs (insk m c2) b2 k2)
               0 1 (l2 ++ [KPast false])); try (intros; lia); auto.
      * intros ->. right. rewrite EL. cbn [app]. right. left. reflexivity.
      * apply loop_agree. constructor; auto; [now apply wf_load|]. exists (last_ei c2). rewrite set_ei_self. now apply store_load.
      * intros n. rewrite F1, past_run, EP2, after_app. reflexivity.
      * intros m. rewrite G1. unfold cont. cbn [snd fst Nat.add]. rewrite drive_run, EP2, NA, NH2, after_app. reflexivity.
Qed.
(** The first step of a CPU that is not halted. *)
Lemma start_agree c b k : wf c -> halt c = false ->
  agree False (fun n => runl Hs (ewl_start FL n c) b k)
   (fun m => if is_irq_allowed c then (let '(b1, q, l) := sample b k in after l
      (runl Hs (pbind (if q then irq_no_check FL false c else ins c) (cont m)) b1 k)) else runl Hs (insk m c) b k).
Proof.
  intros Wc NH. unfold ewl_start. destruct (last_ei c) eqn:EI.
  - assert (NA : is_irq_allowed c = false) by (unfold is_irq_allowed, is_int_allowed; rewrite EI; now destruct (iff1 c), (prefix c)).
    rewrite NA. apply loop_agree. constructor; auto; [apply wf_load; auto with rng| |discriminate].
    exists false. rewrite store_load; auto with rng.
  - replace (is_irq_allowed c) with (is_int_allowed (prefix c) false && iff1 c) by (unfold is_irq_allowed; rewrite EI; apply andb_comm).
    assert (LK : linked False (load_st c) c).
    { constructor; auto; [now apply wf_load| |].
      - exists (last_ei c). rewrite set_ei_self. now apply store_load.
      - cbn. congruence. }
    destruct (is_int_allowed (prefix c) false && iff1 c) eqn:EA.
    2: { exact (loop_agree _ _ _ _ _ LK). }
    destruct (sample b k) as [[b1 q] l] eqn:ES. destruct q.
    + apply (agree_go _ _ _ _ _ _ 0 0 l (fun X => or_introl X) (irq_agree c b1 k Wc)); try (intros; lia); intros n; [|reflexivity].
      rewrite test_run, ES. reflexivity.
    + apply (agree_go _ _ _ _ _ _ 0 0 l (fun X => or_introl X) (loop_agree _ _ _ b1 k LK)); try (intros; lia); intros n; [|reflexivity].
      rewrite test_run, ES. reflexivity.
Qed.
Lemma ewl_agree da c b k : wf c -> halt c = false ->
  agree False (fun n => runl Hs (execute_with_limit FL da n c) b k) (fun m => runl Hs (drive FL m c) b k).
Proof.
  intros Wc NH. unfold execute_with_limit. rewrite NH.
  assert (U : forall m, (m < 1)%nat -> unfinished (runl Hs (drive FL m c) b k)).
  { intros m Hm. assert (m = O) by lia. subst m. exact I. }
  destruct (h_is_past_limit Hs k) eqn:EP.
  - apply (agree_end _ _ _ 0 1 c c None b k [KPast true]); try (intros; lia); auto.
    + now left.
    + intros n. rewrite past_run, EP. reflexivity.
    + intros n. cbn [Nat.add]. rewrite drive_run, EP. reflexivity.
  - apply (agree_go _ _ _ _ _ _ 0 1 [KPast false] (fun X => or_introl X) (start_agree c b k Wc NH)); try (intros; lia); auto.
    + intros n. rewrite past_run, EP. reflexivity.
    + intros n. cbn [Nat.add]. rewrite drive_run, EP, NH. reflexivity.
Qed.

(** A CPU that is halted. *)
Definition hl (n N : nat) c : prog (option (cpu Q * result WB RB)) :=
  pbind (ewl_halted n c) (fun x =>
      match x with
      | None => Ret None
      | Some (inl c) => Ret (Some (c, None))
      | Some (inr c) => ewl_start FL N c
      end).
Hypothesis PURE : irq_pure Hs.
Lemma sample_pure b k : exists q, sample b k = (b, q, [KTs (h_as_ts Hs k); EIsIrq (h_as_ts Hs k) q]).
Proof. exists (snd (h_is_irq Hs b (h_as_ts Hs k))). unfold sample. cbv zeta. now rewrite PURE. Qed.
Definition m1_step c k {X} (f : CK -> res X) : res X :=
  let (k', t) := h_add_m1 Hs k (pc c) in after [KM1 (pc c) t] (f k').
Lemma hl_run n N c b k :
  runl Hs (hl (S n) N c) b k = after [KPast (h_is_past_limit Hs k)]
   (if h_is_past_limit Hs k then Some (Some (c, None), b, k, [])
    else if iff1 c then (let '(b1, q, l) := sample b k in after l
       (if q then runl Hs (ewl_start FL N c) b1 k else m1_step c k (fun k' => runl Hs (hl n N (inc_r c)) b1 k')))
    else m1_step c k (fun k' => runl Hs (hl n N (inc_r c)) b k')).
Proof.
  unfold hl at 1. cbn [ewl_halted pbind]. rewrite past_run. f_equal. destruct (h_is_past_limit Hs k); [reflexivity|].
  rewrite pbind_test, test_run. destruct (iff1 c).
  - destruct (sample b k) as [[b1 q] l]. f_equal. destruct q; [reflexivity|]. cbn [pbind runl]. unfold m1_step.
    destruct (h_add_m1 Hs k (pc c)) as [k' t]. now rewrite cons_after.
  - cbn [pbind runl]. unfold m1_step. destruct (h_add_m1 Hs k (pc c)) as [k' t]. now rewrite cons_after.
Qed.
Lemma drive_halted m c b k : halt c = true -> prefix c = None -> last_ei c = false ->
  runl Hs (drive FL (S m) c) b k = after [KPast (h_is_past_limit Hs k)]
   (if h_is_past_limit Hs k then Some (Some (c, None), b, k, [])
    else if iff1 c then (let '(b1, q, l) := sample b k in after l
       (if q then runl Hs (pbind (irq_no_check FL false c) (cont m)) b1 k
        else m1_step c k (fun k' => runl Hs (drive FL m (inc_r c)) b1 k')))
    else m1_step c k (fun k' => runl Hs (drive FL m (inc_r c)) b k')).
Proof.
  intros HH HX HE. rewrite drive_run, HH. f_equal. destruct (h_is_past_limit Hs k); [reflexivity|].
  replace (is_irq_allowed c) with (iff1 c) by (unfold is_irq_allowed, is_int_allowed; rewrite HX, HE; now destruct (iff1 c)).
  destruct (iff1 c).
  - destruct (sample b k) as [[b1 q] l]. f_equal. destruct q; [reflexivity|]. cbn [pbind runl]. unfold m1_step.
    destruct (h_add_m1 Hs k (pc c)) as [k' t]. now rewrite cons_after.
  - cbn [pbind runl]. unfold m1_step. destruct (h_add_m1 Hs k (pc c)) as [k' t]. now rewrite cons_after.
Qed.
Lemma start_halted c b k q l n : iff1 c = true -> prefix c = None -> last_ei c = false -> sample b k = (b, q, l) -> q = true ->
  runl Hs (ewl_start FL n c) b k = after l (runl Hs (pbind (irq_no_check FL false c) (fun y =>
      match snd y with
      | None => IsPastLimit (fun past => if past then Ret (Some (fst y, None)) else ewl_loop FL n (load_st (fst y)))
      | Some e => Ret (Some (fst y, Some e))
      end)) b k).
Proof.
  intros HI HX HE ES ->. unfold ewl_start. rewrite HE, test_run, HX, HI. cbn [is_int_allowed andb negb].
  rewrite ES. reflexivity.
Qed.
Lemma unsampled_app (l l' : log) : unsampled (l ++ l') = unsampled l ++ unsampled l'.
Proof. apply filter_app. Qed.
Lemma after_some {X} l (x : res X) y b k l' : after l x = Some (y, b, k, l') ->
  exists l2, x = Some (y, b, k, l2) /\ l' = l ++ l2.
Proof. destruct x as [[[[? ?] ?] ?]|]; cbn; [|discriminate]. intros E. injection E as -> -> -> <-. eauto. Qed.
Lemma same_ei_app (l l2 : log) c d : same_ei (Exists fb_ack l2) c d -> same_ei (Exists fb_ack (l ++ l2)) c d.
Proof. intros [X|[X Y]]; [now left|right]. split; [exact X|]. apply Exists_app. now right. Qed.
Definition hsame (l l' : log) c' d' := unsampled l = unsampled l' /\ same_ei (Exists fb_ack l) c' d'.
Lemma hsame_app la lb l l' c d : unsampled la = unsampled lb -> hsame l l' c d -> hsame (la ++ l) (lb ++ l') c d.
Proof.
  intros E [H1 H2]. split; [rewrite !unsampled_app; congruence|]. now apply same_ei_app.
Qed.
Lemma same_ei_false (l : log) c d : same_ei (False \/ Exists fb_ack l) c d -> same_ei (Exists fb_ack l) c d.
Proof. intros [X|[X [[]|Y]]]; [now left|right; auto]. Qed.
Lemma halted_fwd N n : forall c b k c' r b' k' l, wf c -> halt c = true -> prefix c = None -> last_ei c = false ->
  runl Hs (hl n N c) b k = Some (Some (c', r), b', k', l) ->
  exists d' l', finishes (fun m => runl Hs (drive FL m c) b k) d' r b' k' l' /\ hsame l l' c' d'.
Proof.
  induction n as [|n IH]; intros c b k c' r b' k' l Wc HH HX HE E; [discriminate E|].
  rewrite hl_run in E.
  assert (M1 : forall b1 l0, after l0 (m1_step c k (fun k' => runl Hs (hl n N (inc_r c)) b1 k')) = Some (Some (c', r), b', k', l) ->
     (forall m, runl Hs (drive FL (S m) c) b k = after l0 (m1_step c k (fun k' => runl Hs (drive FL m (inc_r c)) b1 k'))) ->
     exists d' l', finishes (fun m => runl Hs (drive FL m c) b k) d' r b' k' l' /\ hsame l l' c' d').
  { intros b1 l0 E0 D. unfold m1_step in *. destruct (h_add_m1 Hs k (pc c)) as [k1 t]. rewrite after_app in E0.
    apply after_some in E0. destruct E0 as (l2 & E0 & ->).
    destruct (IH (inc_r c) b1 k1 c' r b' k' l2) as (d' & l' & [m F] & HS); auto with rng.
    exists d', ((l0 ++ [KM1 (pc c) t]) ++ l'). split; [|now apply hsame_app].
    exists (S m). rewrite D, F, after_app. reflexivity. }
  pose proof (fun m => drive_halted m c b k HH HX HE) as D.
  destruct (h_is_past_limit Hs k) eqn:EP.
  - injection E as <- <- <- <- <-. exists c, [KPast true]. split; [exists 1%nat; apply D|]. split; [reflexivity|now left].
  - destruct (iff1 c) eqn:EI.
    2: { apply (M1 b [KPast false]); auto. }
    destruct (sample_pure b k) as [q ES]. set (ls := [KTs (h_as_ts Hs k); EIsIrq (h_as_ts Hs k) q]) in *. rewrite ES in E.
    assert (D' : forall m, runl Hs (drive FL (S m) c) b k = after ([KPast false] ++ ls)
      (if q then runl Hs (pbind (irq_no_check FL false c) (cont m)) b k
        else m1_step c k (fun k' => runl Hs (drive FL m (inc_r c)) b k'))) by (intros m; rewrite D, ES, after_app; reflexivity).
    destruct q.
    2: { rewrite after_app in E. apply (M1 b ([KPast false] ++ ls)); auto. }
    rewrite (start_halted c b k true ls N EI HX HE ES eq_refl), !after_app in E. apply after_some in E.
    destruct E as (l2 & E & ->).
    destruct (ag_fwd _ _ _ (irq_agree c b k Wc) c' r b' k' l2 (ex_intro _ N E)) as (_ & d & [m Y2] & Y3).
    exists d, (([KPast false] ++ ls) ++ l2). split.
    + exists (S m). rewrite D', (Y2 m (le_n _)). reflexivity.
    + apply hsame_app; [reflexivity|]. split; [reflexivity|]. now apply same_ei_false.
Qed.
Lemma halted_bwd m : forall c b k d' r b' k' l, wf c -> halt c = true -> prefix c = None -> last_ei c = false ->
  runl Hs (drive FL m c) b k = Some (Some (d', r), b', k', l) ->
  exists c' l' n0, (forall n N, (n0 <= n)%nat -> (n0 <= N)%nat -> runl Hs (hl n N c) b k = Some (Some (c', r), b', k', l')) /\
    hsame l' l c' d'.
Proof.
  induction m as [|m IH]; intros c b k d' r b' k' l Wc HH HX HE E; [discriminate E|].
  rewrite (drive_halted m c b k HH HX HE) in E.
  assert (M1 : forall b1 l0, after l0 (m1_step c k (fun k' => runl Hs (drive FL m (inc_r c)) b1 k')) = Some (Some (d', r), b', k', l) ->
     (forall n N, runl Hs (hl (S n) N c) b k = after l0 (m1_step c k (fun k' => runl Hs (hl n N (inc_r c)) b1 k'))) ->
     exists c' l' n0, (forall n N, (n0 <= n)%nat -> (n0 <= N)%nat -> runl Hs (hl n N c) b k = Some (Some (c', r), b', k', l')) /\
      hsame l' l c' d').
  { intros b1 l0 E0 D. unfold m1_step in *. destruct (h_add_m1 Hs k (pc c)) as [k1 t]. rewrite after_app in E0.
    apply after_some in E0. destruct E0 as (l2 & E0 & ->).
    destruct (IH (inc_r c) b1 k1 d' r b' k' l2) as (c' & l' & n0 & F & HS); auto with rng.
    exists c', ((l0 ++ [KM1 (pc c) t]) ++ l'), (S n0). split; [|now apply hsame_app].
    intros [|n] N Hn HN; [lia|]. rewrite D, F, after_app by lia. reflexivity. }
  pose proof (fun n N => hl_run n N c b k) as D.
  destruct (h_is_past_limit Hs k) eqn:EP.
  - injection E as <- <- <- <- <-. exists c, [KPast true], 1%nat. split.
    + intros [|n] N Hn HN; [lia|]. apply D.
    + split; [reflexivity|now left].
  - destruct (iff1 c) eqn:EI.
    2: { apply (M1 b [KPast false]); auto. }
    destruct (sample_pure b k) as [q ES]. set (ls := [KTs (h_as_ts Hs k); EIsIrq (h_as_ts Hs k) q]) in *. rewrite ES, after_app in E.
    assert (D' : forall n N, runl Hs (hl (S n) N c) b k = after ([KPast false] ++ ls)
      (if q then runl Hs (ewl_start FL N c) b k else m1_step c k (fun k' => runl Hs (hl n N (inc_r c)) b k')))
      by (intros n N; rewrite D, ES, after_app; reflexivity).
    destruct q.
    2: { apply (M1 b ([KPast false] ++ ls)); auto. }
    apply after_some in E. destruct E as (l2 & E & ->).
    destruct (ag_bwd _ _ _ (irq_agree c b k Wc) d' r b' k' l2 (ex_intro _ m E)) as (_ & c' & [n0 Y2] & Y3).
    exists c', ((([KPast false] ++ ls) ++ ls) ++ l2), (S n0). split.
    + intros [|n] N Hn HN; [lia|]. rewrite D', (start_halted c b k true ls N EI HX HE ES eq_refl), Y2, !after_app by lia. reflexivity.
    + apply hsame_app; [reflexivity|]. split; [reflexivity|]. now apply same_ei_false.
Qed.
End Host.
End D.
