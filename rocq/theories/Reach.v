(** Invariants of the reachable states: iff1 implies iff2 (C38), the HALT assertions (C39); EI delay (C15). *)
From Coq Require Import ZArith Bool List Lia.
From Verif Require Import Base Flags Ops Parse Cpu Flavours Prog Trace Internal Instr Exec Range Safe SafeEntry SafeRun Clock ClockProofs
  SpecAlu SpecState SpecIsa SpecCycles SpecStep SpecReach IsaLink IsaArith IsaTac IsaCycles IsaFacts IsaExec IsaRun Steps Lock IsaControl Ewl Accessors AluProofs Decode Control.
Import ListNotations.
Open Scope Z_scope.
Ltac Zify.zify_post_hook ::= Z.div_mod_to_equations.

Section R.
Context {Q T TS WB RB : Type}.
Variables (FL : Flavour Q) (ch : chip T) (absq : Q -> T).
Hypothesis OK : chip_ok FL ch absq.
Implicit Types c : cpu Q.
Implicit Types s : @st Q.
Notation runs := (runs (TS:=TS) (WB:=WB) (RB:=RB)).
Notation wpl := (Trace.wpl (TS:=TS) (WB:=WB) (RB:=RB)) (only parsing).

Lemma abs2_inc_r s : abs2 absq (mkSt (inc_r (sc s)) (sfl s) (spc s) (spx s)) = inc_R (abs2 absq s).
Proof.
  assert (E := f_equal aR (abs_inc_r absq (sc s))).
  rewrite <- !abs2_eq. unfold abs_st. cbn [sc sfl spc spx]. change (aR (abs absq (inc_r (sc s)))) with (get_r (inc_r (sc s))) in E.
  rewrite E. reflexivity.
Qed.
Lemma IR_abs2 s : wf (sc s) -> IR (abs2 absq s) = get_ir (sc s).
Proof.
  intros Hw. rewrite (IR_abs absq) by exact Hw. unfold IR, abs2, abs. cbn. now rewrite <- get_r_rval.
Qed.
(** One instruction of the loop of [execute_with_limit]. *)
Lemma loop_instr_isa s : wfst s ->
  wpl (loop_instr FL s) (fun x l => wfst (fst x) /\ Forall data_byte (buses l) /\ exists o, snd x = reason_of o /\
    accepts (fetch (abs2 absq s) (exec_op ch)) (buses l) (clocks l) (abs2 absq (fst x), o)).
Proof.
  intros (H1 & H2 & H3).
  apply (wpl_mono _ (fun x l => (wfst (fst x) /\ exists o, snd x = reason_of o /\
    accepts (fetch (abs2 absq s) (exec_op ch)) (buses l) (clocks l) (abs2 absq (fst x), o)) /\ Forall data_byte (buses l))).
  { intros x l ((A & B) & C). auto. }
  apply wpl_bytes. unfold loop_instr. apply wpl_bind. unfold fetch_next_opcode. cbn. intros t v Hv.
  assert (W : wfst (mkSt (inc_r (sc s)) (sfl s) (u16 (spc s + 1)) (spx s)))
    by (split; [|split]; cbn [sc sfl spc]; auto with rng).
  refine (wpl_mono _ _ _ _ (exec_code_isa FL ch absq OK false v _ Hv W)).
  intros [s' r] l ((o & Ho & HA) & HW). cbn [fst snd] in *. split; [exact HW|]. exists o. split; [exact Ho|].
  unfold fetch. cbv zeta. rewrite <- abs2_inc_r. cbn [flat_map bus1 clk1 app buses clocks accepts aPC abs2 spc].
  split; [reflexivity|]. split; [|split; [reflexivity|exact HA]]. rewrite IR_abs2; [reflexivity|]. cbn [sc]. auto with rng.
Qed.

(** ** C38 *)
Definition iffs c : Prop := iff1 c = true -> iff2 c = true.
Lemma exec_iffs op (a : arch T) (bl : list (bev WB RB)) cl a' o : isbyte op -> Forall data_byte bl -> (aIFF1 a = true -> aIFF2 a = true) ->
  accepts (exec_op ch op a) bl cl (a', o) -> aIFF1 a' = true -> aIFF2 a' = true.
Proof.
  intros Hc HD HI H. apply exec_control in H; [|assumption..]. destruct H as (_ & _ & _ & -> & -> & _).
  destruct (op =? 0xF3); [auto|]. destruct (op =? 0xFB); [auto|]. destruct (is_retn _); auto.
Qed.
Lemma int_iffs (a : arch T) (bl : list (bev WB RB)) cl a' o : Forall data_byte bl ->
  accepts (accept_int ch a) bl cl (a', o) -> aIFF1 a' = true -> aIFF2 a' = true.
Proof.
  intros HD H. apply int_control in H; [|assumption]. destruct H as (p & v & w & bl' & _ & _ & -> & -> & _). auto.
Qed.
Lemma next_iffs (a : arch T) (bl : list (bev WB RB)) cl a' o : Forall data_byte bl -> (aIFF1 a = true -> aIFF2 a = true) ->
  accepts (next ch a) bl cl (a', o) -> aIFF1 a' = true -> aIFF2 a' = true.
Proof.
  intros HD HI H. apply next_cases in H; [|exact HD]. destruct H as [bl' _ _ HD' H|_ _ _ -> _|ir v bl' cl' _ _ _ HV HD' H].
  - exact (int_iffs _ _ _ _ _ HD' H).
  - exact HI.
  - unfold exec in H. refine (exec_iffs _ _ _ _ _ _ HV HD' _ H). exact HI.
Qed.
Definition inv38 c : Prop := wf c /\ iffs c.
Lemma ewl_iffs fuel c : inv38 c -> wpl (execute_with_limit FL false fuel c) (fun x _ => okr inv38 x).
Proof.
  intros HI. apply (wpl_mono _ (fun x l => True /\ okr inv38 x)); [intros a l H; apply H|].
  apply execute_with_limit_log with (LP := fun _ => True)
    (L := fun s => wfst s /\ (iff1 (sc s) = true -> iff2 (sc s) = true)); try assumption; trivial.
  - intros s [Hs HF]. refine (wpl_mono _ _ _ _ (loop_instr_isa s Hs)).
    intros [s' r] l (Hw & HD & o & Ho & HA). split; [exact I|]. cbn [fst snd] in *.
    assert (G : iff1 (sc s') = true -> iff2 (sc s') = true).
    { unfold fetch in HA. cbv zeta in HA. apply acc_m1 in HA. destruct HA as (v & bl' & cl' & EB & _ & HA). rewrite EB in HD.
      inversion HD as [|? ? D1 D2]; subst. refine (exec_iffs _ _ _ _ _ _ D1 D2 _ HA). exact HF. }
    split; [split; [now apply wf_store|exact G]|].
    destruct r as [[]|]; auto. split; [|exact G]. destruct Hw as (H1 & H2 & H3). split; [|split]; cbn [sc sfl spc]; auto with rng.
  - intros c' [Hc HF]. refine (wpl_mono _ _ _ _ (wpl_bytes _ _ (irq_no_check_isa FL ch absq OK false c' Hc))).
    intros [c2 u] l [(W & o & _ & HA) HD]. split; [exact I|]. cbn [fst snd] in *.
    assert (G := int_iffs _ _ _ _ _ HD HA). split; [split; assumption|]. intros _. split; [now apply wf_load|exact G].
  - intros c' [Hc HF]. split; [split; [now apply wf_load|exact HF]|]. intros _. split; [|exact HF]. apply wf_load. auto with rng.
  - intros c' [Hc HF] _. split; [auto with rng|exact HF].
  - discriminate.
Qed.
Lemma runs_at {A} (p : prog TS WB RB A) P BS CK (Hs : host TS WB RB BS CK) b k x b' k' l :
  runs p P -> runl Hs p b k = Some (x, b', k', l) -> Forall data_byte (buses l) /\ P x (buses l) (clocks l).
Proof. intros H E. destruct (H BS CK Hs b k) as (x2 & b2 & k2 & l2 & E2 & D & HP). rewrite E in E2. injection E2 as <- <- <- <-. auto. Qed.
Lemma wpl_at {A} (p : prog TS WB RB A) P BS CK (Hs : host TS WB RB BS CK) b k x b' k' l :
  wpl p P -> runl Hs p b k = Some (x, b', k', l) -> P x l.
Proof. intros H E. destruct (wpl_run Hs p _ b k H) as (x2 & b2 & k2 & l2 & E2 & HP). rewrite E in E2. injection E2 as <- <- <- <-. auto. Qed.
Lemma reach_iffs q0 lim c : reach TS WB RB FL q0 lim c -> inv38 c.
Proof.
  induction 1 as [|dbg c BS CK Hs b k c' x b' k' l _ [W I] E|dbg code c BS CK Hs b k c' x b' k' l Hc _ [W I] E
    |dbg c BS CK Hs b k c' x b' k' l _ [W I] E|c BS CK Hs b k c' x b' k' l _ [W I] E
    |fuel c BS CK Hs b k c' x b' k' l _ _ HI E].
  - split; [apply wf_reset; repeat constructor|]. intros H. discriminate H.
  - destruct (runs_at _ _ _ _ _ _ _ _ _ _ _ (execute_next_follows FL ch absq OK dbg c W) E) as (D & W' & o & _ & HA).
    split; [exact W'|]. refine (next_iffs _ _ _ _ _ D _ HA). exact I.
  - destruct (runs_at _ _ _ _ _ _ _ _ _ _ _ (execute_instruction_follows FL ch absq OK dbg code c Hc W) E) as (D & W' & o & _ & HA).
    split; [exact W'|]. refine (exec_iffs _ _ _ _ _ _ Hc D _ HA). exact I.
  - destruct (runs_at _ _ _ _ _ _ _ _ _ _ _ (irq_follows FL ch absq OK dbg c W) E) as (D & HA).
    destruct (int_enabled _).
    + destruct HA as (r & _ & W' & o & _ & HA). split; [exact W'|]. exact (int_iffs _ _ _ _ _ D HA).
    + destruct HA as (HA & _). injection HA as -> _. split; assumption.
  - destruct (runs_at _ _ _ _ _ _ _ _ _ _ _ (nmi_follows FL ch absq OK c W) E) as (D & HA).
    destruct (nmi_enabled _).
    + destruct HA as (_ & W' & o & _ & HA). split; [exact W'|]. apply nmi_control in HA.
      intros H. destruct HA as (HA & _). change (aIFF1 (abs absq c') = true) in H. cbn [fst] in HA. rewrite HA in H. discriminate H.
    + destruct HA as (HA & _). injection HA as -> _. split; assumption.
  - exact (wpl_at _ _ _ _ _ _ _ _ _ _ _ (ewl_iffs fuel c HI) E).
Qed.

(** ** C39, without [execute_with_limit] *)
Definition inv39 c : Prop := wf c /\ (halt c = true -> prefix c = None /\ last_ei c = false).
Lemma exec_inv39 code (a : arch T) (bl : list (bev WB RB)) cl a' o : isbyte code -> Forall data_byte bl ->
  accepts (exec ch code a) bl cl (a', o) -> aHALT a' = true -> aPX a' = None /\ aEI a' = false.
Proof.
  intros Hc HD H. unfold exec in H. apply exec_control in H; [|assumption..].
  destruct H as (-> & E1 & E2 & _). cbn [aHALT aEI wHALT wEI orb] in *. rewrite E2, E1, Z.eqb_eq. intros ->. auto.
Qed.
Lemma int_inv39 (a : arch T) (bl : list (bev WB RB)) cl a' o : Forall data_byte bl ->
  accepts (accept_int ch a) bl cl (a', o) -> aHALT a' = true -> aPX a' = None /\ aEI a' = false.
Proof.
  intros HD H. apply int_control in H; [|assumption].
  destruct H as (p & v & w & bl' & _ & _ & _ & _ & -> & -> & -> & _). destruct (aIM a); try discriminate.
  rewrite Z.eqb_eq. intros ->. auto.
Qed.
Lemma next_inv39 (a : arch T) (bl : list (bev WB RB)) cl a' o : Forall data_byte bl ->
  (aHALT a = true -> aPX a = None /\ aEI a = false) ->
  accepts (next ch a) bl cl (a', o) -> aHALT a' = true -> aPX a' = None /\ aEI a' = false.
Proof.
  intros HD HI H. apply next_cases in H; [|exact HD]. destruct H as [bl' _ _ HD' H|_ _ _ -> _|ir v bl' cl' _ _ _ HV HD' H].
  - exact (int_inv39 _ _ _ _ _ HD' H).
  - exact HI.
  - exact (exec_inv39 _ _ _ _ _ _ HV HD' H).
Qed.
Lemma reach_inv39 q0 c : reach TS WB RB FL q0 false c -> inv39 c.
Proof.
  induction 1 as [|dbg c BS CK Hs b k c' x b' k' l _ [W I] E|dbg code c BS CK Hs b k c' x b' k' l Hc _ [W I] E
    |dbg c BS CK Hs b k c' x b' k' l _ [W I] E|c BS CK Hs b k c' x b' k' l _ [W I] E
    |fuel c BS CK Hs b k c' x b' k' l X _ HI E].
  - split; [apply wf_reset; repeat constructor|]. intros H. discriminate H.
  - destruct (runs_at _ _ _ _ _ _ _ _ _ _ _ (execute_next_follows FL ch absq OK dbg c W) E) as (D & W' & o & _ & HA).
    split; [exact W'|]. refine (next_inv39 _ _ _ _ _ D _ HA). exact I.
  - destruct (runs_at _ _ _ _ _ _ _ _ _ _ _ (execute_instruction_follows FL ch absq OK dbg code c Hc W) E) as (D & W' & o & _ & HA).
    split; [exact W'|]. exact (exec_inv39 _ _ _ _ _ _ Hc D HA).
  - destruct (runs_at _ _ _ _ _ _ _ _ _ _ _ (irq_follows FL ch absq OK dbg c W) E) as (D & HA).
    destruct (int_enabled _).
    + destruct HA as (r & _ & W' & o & _ & HA). split; [exact W'|]. exact (int_inv39 _ _ _ _ _ D HA).
    + destruct HA as (HA & _). injection HA as -> _. split; assumption.
  - destruct (runs_at _ _ _ _ _ _ _ _ _ _ _ (nmi_follows FL ch absq OK c W) E) as (D & HA).
    destruct (nmi_enabled _).
    + destruct HA as (_ & W' & o & _ & HA). split; [exact W'|]. apply nmi_control in HA.
      intros H. destruct HA as (_ & _ & _ & HA & _). change (aHALT (abs absq c') = true) in H. cbn [fst] in HA. rewrite HA in H. discriminate H.
    + destruct HA as (HA & _). injection HA as -> _. split; assumption.
  - discriminate X.
Qed.

(** ** C15 *)
(** After EI, whatever is fetched next is executed before any interrupt is looked at. *)
Lemma after_ei dbg c : wf c -> last_ei c = true -> halt c = false ->
  runs (execute_next FL dbg c) (fun x bl cl => exists i v bl', bl = VOp (pc c) i v :: bl' /\
    (v <> 0xFB -> pfx_of v = None ->
     is_nmi_allowed (fst x) = true /\ is_irq_allowed (fst x) = iff1 (fst x) /\
     (iff1 c = true -> iff2 c = true -> iff1 (fst x) = negb (v =? 0xF3)))).
Proof.
  intros Hw HE HH. refine (runs_mono _ _ _ _ (execute_next_follows FL ch absq OK dbg c Hw)).
  intros x bl cl HD (W & o & Ho & H).
  assert (NI : int_enabled (abs absq c) = false)
    by (unfold int_enabled, nmi_enabled; cbn [abs aIFF1 aEI aPX]; rewrite HE; now destruct (iff1 c), (prefix c)).
  apply next_cases in H; [|exact HD]. destruct H as [bl' HI -> HD' H|HX -> -> HX2 _|ir v bl' cl' _ -> -> HV HD' H].
  - congruence.
  - cbn [abs aHALT] in HX. congruence.
  - unfold irq_sample. rewrite NI. cbn [app]. exists ir, v, bl'. split; [reflexivity|].
    unfold exec in H. apply exec_control in H; [|assumption..].
    destruct H as (P1 & P2 & _ & _ & P5 & _). cbn [abs aEI wEI wHALT wPC inc_R wR aIFF1 aIFF2 aPX orb] in *.
    intros N1 N2. assert (F1 : (v =? 0xFB) = false) by now apply Z.eqb_neq.
    rewrite F1 in *. assert (EP : prefix (fst x) = None) by congruence. assert (EE : last_ei (fst x) = false) by exact P2.
    unfold is_nmi_allowed, is_irq_allowed, is_int_allowed. rewrite EP, EE. split; [reflexivity|].
    split; [now destruct (iff1 (fst x))|]. intros I1 I2. rewrite P5, I1, I2. destruct (v =? 0xF3); [reflexivity|]. now destruct (is_retn _).
Qed.
Lemma after_ei' dbg c : wf c -> last_ei c = true -> halt c = false ->
  runs (execute_next FL dbg c) (fun x bl cl => exists i v bl', bl = VOp (pc c) i v :: bl' /\
    (v <> 0xFB -> v <> 0xDD -> v <> 0xFD ->
     is_nmi_allowed (fst x) = true /\ is_irq_allowed (fst x) = iff1 (fst x) /\
     (iff1 c = true -> iff2 c = true -> iff1 (fst x) = negb (v =? 0xF3)))).
Proof.
  intros Hw HE HH. refine (runs_mono _ _ _ _ (after_ei dbg c Hw HE HH)). intros x bl cl _ (i & v & bl' & -> & H).
  exists i, v, bl'. split; [reflexivity|]. intros N1 N2 N3. apply H; [exact N1|]. unfold pfx_of.
  rewrite (proj2 (Z.eqb_neq _ _) N2), (proj2 (Z.eqb_neq _ _) N3). reflexivity.
Qed.
Lemma ei_effect dbg c : wf c ->
  runs (execute_instruction FL dbg 0xFB c) (fun x _ _ =>
    iff1 (fst x) = true /\ iff2 (fst x) = true /\ halt (fst x) = false /\ last_ei (fst x) = true /\
    irq (TS:=TS) (WB:=WB) (RB:=RB) FL dbg (fst x) = Ret (fst x, None) /\
    nmi (TS:=TS) (WB:=WB) (RB:=RB) FL (fst x) = Ret (fst x, false)).
Proof.
  intros Hw. assert (B : byte 0xFB) by (unfold byte; lia).
  refine (runs_mono _ _ _ _ (execute_instruction_ctl FL ch absq OK dbg 0xFB c B Hw)).
  intros x bl cl _ [W P E H I2 I1 _ _]. cbn in E, H, I1, I2.
  rewrite I1, I2, H, E. repeat (split; [reflexivity|]).
  unfold irq, nmi, is_irq_allowed, is_int_allowed. rewrite E. destruct (prefix (fst x)), (iff1 (fst x)); split; reflexivity.
Qed.
Lemma after_prefix dbg c : wf c -> prefix c <> None -> halt c = false ->
  runs (execute_next FL dbg c) (fun x bl cl => exists i v bl', bl = VOp (pc c) i v :: bl' /\ prefix (fst x) = pfx_of v).
Proof.
  intros Hw HE HH. refine (runs_mono _ _ _ _ (execute_next_follows FL ch absq OK dbg c Hw)).
  intros x bl cl HD (W & o & Ho & H).
  assert (NI : int_enabled (abs absq c) = false)
    by (unfold int_enabled, nmi_enabled; cbn [abs aIFF1 aEI aPX]; destruct (iff1 c), (prefix c), (last_ei c); auto; contradiction).
  apply next_cases in H; [|exact HD]. destruct H as [bl' HI -> HD' H|HX -> -> HX2 _|ir v bl' cl' _ -> -> HV HD' H].
  - congruence.
  - cbn [abs aHALT] in HX. congruence.
  - unfold irq_sample. rewrite NI. cbn [app]. exists ir, v, bl'. split; [reflexivity|].
    unfold exec in H. apply exec_control in H; [|assumption..]. apply H.
Qed.
End R.

Lemma prefix_refuses Q TS WB RB (FL : Flavour Q) dbg (c : cpu Q) : prefix c <> None ->
  irq (TS:=TS) (WB:=WB) (RB:=RB) FL dbg c = Ret (c, None) /\ nmi (TS:=TS) (WB:=WB) (RB:=RB) FL c = Ret (c, false).
Proof.
  intros N. unfold irq, nmi, is_irq_allowed, is_int_allowed. destruct (prefix c); [|contradiction].
  destruct (iff1 c), (last_ei c); split; reflexivity.
Qed.
Lemma prefix_chain' Q TS WB RB (FL : Flavour Q) l (c : cpu Q) : wf c ->
  (forall x, In x l -> x = 0xDD \/ x = 0xFD) -> l <> [] ->
  exists c', exec_list (TS:=TS) (WB:=WB) (RB:=RB) FL l c = Ret c' /\
    prefix c' = (if last l 0 =? 0xDD then Some Xdd else Some Yfd) /\
    last_ei c' = false /\ halt c' = false /\ wf c' /\
    (af c', bc c', de c', hl c', ix c', iy c', sp c', pc c', memptr c', ir c', r c') =
    (af c, bc c, de c, hl c, ix c, iy c, sp c, pc c, memptr c, ir c, r c) /\
    (af_alt c', bc_alt c', de_alt c', hl_alt c', im c', iff1 c', iff2 c') =
    (af_alt c, bc_alt c, de_alt c, hl_alt c, im c, iff1 c, iff2 c).
Proof.
  intros Hw HI N. destruct (prefix_chain (TS:=TS) (WB:=WB) (RB:=RB) FL l c Hw HI N) as (c' & E & P & R).
  exists c'. split; [exact E|]. split; [|exact R]. rewrite P. unfold pfx_of.
  assert (In (last l 0) l) as HL.
  { clear - N. induction l as [|x l IH]; [contradiction|]. destruct l; [now left|]. right. apply IH. discriminate. }
  destruct (HI _ HL) as [-> | ->]; reflexivity.
Qed.
Lemma limit_after_ei Q TS WB RB (FL : Flavour Q) fuel (c : cpu Q) : wf c -> last_ei c = true -> halt c = false ->
  forall BS CK (Hs : host TS WB RB BS CK) b k,
  match runl Hs (execute_with_limit FL false (S fuel) c) b k with
  | Some (_, _, _, l) => l = [KPast true] \/ exists t i t' v l', l = KPast false :: KM1 (pc c) t :: EOp (pc c) i t' v :: l'
  | None => False
  end.
Proof.
  intros Hw HE HH BS CK Hs b k.
  assert (NS : runl Hs (execute_with_limit FL false (S fuel) c) b k <> None).
  { assert (W := execute_with_limit_wf (TS:=TS) (WB:=WB) (RB:=RB) FL false (S fuel) c Hw ltac:(discriminate)).
    destruct (wpl_run Hs _ _ b k W) as (x & b' & k' & l & E & _). rewrite E. discriminate. }
  assert (EP : exists i K, execute_with_limit (TS:=TS) (WB:=WB) (RB:=RB) FL false (S fuel) c =
    IsPastLimit (fun past => if past then Ret (Some (c, None)) else
      AddM1 (pc c) (fun t => ReadOpcode (pc c) i t (fun v => K t v)))).
  { unfold execute_with_limit, ewl_start. rewrite HH, HE. do 2 eexists. cbn [ewl_loop]. unfold loop_instr, fetch_next_opcode.
    cbn. reflexivity. }
  destruct EP as (i & K & EP). rewrite EP in *. clear EP. unfold result in *. cbn [runl] in *. cbv zeta in *.
  destruct (h_is_past_limit Hs k); [cbn; auto|]. cbn [runl] in *. cbv zeta in *.
  repeat match goal with |- context [let (_, _) := ?x in _] => destruct x end.
  match goal with |- context [cons_log (EOp _ _ _ _) ?r] => destruct r as [[[[? ?] ?] ?]|] eqn:E end.
  - right. do 5 eexists. reflexivity.
  - apply NS. reflexivity.
Qed.
