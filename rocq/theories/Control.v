(** Prefix, EI, HALT, interrupt flip-flops and R after each entry point, on every host. *)
From Coq Require Import ZArith Bool List Lia.
From Verif Require Import Base Flags Ops Parse Cpu Flavours Prog Trace Internal Instr Exec Range Safe SafeEntry SafeRun Clock ClockProofs
  SpecAlu SpecState SpecIsa SpecCycles SpecStep IsaLink IsaTac IsaCycles IsaFacts IsaExec IsaRun Steps Lock IsaControl Ewl Accessors AluProofs Decode.
Import ListNotations.
Open Scope Z_scope.
Ltac Zify.zify_post_hook ::= Z.div_mod_to_equations.

Lemma wpl_bytes {TS WB RB A} (p : prog TS WB RB A) : forall P, wpl p P ->
  wpl p (fun x l => P x l /\ Forall data_byte (buses l)).
Proof.
  induction p; intros P HP; cbn [wpl] in *.
  1: { split; [exact HP|constructor]. }
  1: exact HP.
  all: intros.
  all: match goal with
    | HP : _ |- Trace.wpl (?k ?v ?w) _ => first [specialize (HP v w)|idtac]; first [specialize (HP ltac:(assumption))|idtac]; refine (wpl_mono _ _ _ _ (H v w _ HP))
    | HP : _ |- Trace.wpl (?k ?v) _ => specialize (HP v); first [specialize (HP ltac:(assumption))|idtac]; refine (wpl_mono _ _ _ _ (H v _ HP))
    | _ => refine (wpl_mono _ _ _ _ (IHp _ HP))
    end.
  all: cbv beta; intros ? ? [HA HB]; split; [exact HA|].
  all: match goal with |- Forall _ (buses (?e :: ?l)) => change (buses (e :: l)) with (bus1 e ++ buses l) end; cbn [bus1 app];
    repeat (apply Forall_cons; [try exact I; try assumption; unfold data_byte|]); try exact HB.
  all: unfold word, isbyte, byte in *; lia.
Qed.

Section Ctl.
Context {Q T TS WB RB : Type}.
Variables (FL : Flavour Q) (ch : chip T) (absq : Q -> T).
Hypothesis OK : chip_ok FL ch absq.
Implicit Types c : cpu Q.
Notation runs := (runs (TS:=TS) (WB:=WB) (RB:=RB)).
Notation wpl := (Trace.wpl (TS:=TS) (WB:=WB) (RB:=RB)) (only parsing).

(** The control state after executing op-code [code] in control state of [c] ([cl], [bl]: what followed the fetch). *)
Record instr_ctl (code : Z) c (x : cpu Q * result WB RB) (bl : list (bev WB RB)) (cl : list tev) : Prop := mkIC {
  ic_wf : wf (fst x);
  ic_prefix : prefix (fst x) = pfx_of code;
  ic_ei : last_ei (fst x) = (code =? 0xFB);
  ic_halt : halt (fst x) = (code =? 0x76);
  ic_iff2 : iff2 (fst x) = (if code =? 0xF3 then false else if code =? 0xFB then true else iff2 c);
  ic_iff1 : iff1 (fst x) = (if code =? 0xF3 then false else if code =? 0xFB then true
                            else if is_retn (code :: opcodes bl) then iff2 c else iff1 c);
  ic_r : get_r (fst x) = (if is_ld_r_a (code :: opcodes bl) then get_acc c else r_plus (m1s cl) (get_r c));
  ic_res : snd x = Some BHalt <-> code = 0x76 }.
Lemma res_halt (o : outcome WB RB) : result_of o = Some BHalt <-> o = OHalt.
Proof. destruct o; cbn; split; congruence. Qed.
Lemma exec_ctl code c x bl cl : byte code -> Forall data_byte bl ->
  as_spec absq (exec ch code (abs absq c)) (fst x) (snd x) bl cl -> instr_ctl code c x bl cl.
Proof.
  intros Hc HD (W & o & Ho & H). unfold exec in H. apply exec_control in H; [|exact Hc|exact HD].
  destruct H as (H1 & H2 & H3 & H4 & H5 & H6 & H7 & H8).
  constructor; try assumption. rewrite Ho, res_halt. exact H7.
Qed.
Lemma execute_instruction_ctl dbg code c : byte code -> wf c ->
  runs (execute_instruction FL dbg code c) (instr_ctl code c).
Proof.
  intros Hc Hw. refine (runs_mono _ _ _ _ (execute_instruction_follows FL ch absq OK dbg code c Hc Hw)).
  intros x bl cl HD H. now apply exec_ctl.
Qed.

(** A step of [execute_next]. *)
Lemma execute_next_r dbg c : wf c ->
  runs (execute_next FL dbg c) (fun x bl cl => wf (fst x) /\
    get_r (fst x) = if is_ld_r_a (opcodes bl) then get_acc c else r_plus (m1s cl) (get_r c)).
Proof.
  intros Hw. refine (runs_mono _ _ _ _ (execute_next_follows FL ch absq OK dbg c Hw)).
  intros x bl cl HD (W & o & Ho & H). split; [exact W|]. exact (next_R ch _ _ _ _ _ HD H).
Qed.
Lemma irq_r dbg c : wf c ->
  runs (irq FL dbg c) (fun x bl cl => wf (fst x) /\
    get_r (fst x) = if is_ld_r_a (opcodes bl) then get_acc c else r_plus (m1s cl) (get_r c)).
Proof.
  intros Hw. refine (runs_mono _ _ _ _ (irq_follows FL ch absq OK dbg c Hw)).
  intros x bl cl HD H. cbv beta in H. destruct (int_enabled (abs absq c)).
  - destruct H as (q & _ & W & o & _ & H). split; [exact W|]. apply int_control in H; [|exact HD].
    destruct H as (p & v & w & bl' & _ & _ & _ & _ & _ & _ & _ & H & _). exact H.
  - destruct H as (-> & -> & ->). split; [exact Hw|]. symmetry. apply r_plus_0.
Qed.
Lemma nmi_r c : wf c ->
  runs (nmi FL c) (fun x bl cl => wf (fst x) /\ get_r (fst x) = r_plus (m1s cl) (get_r c) /\
    m1s cl = if is_nmi_allowed c then 1 else 0).
Proof.
  intros Hw. unfold is_nmi_allowed. rewrite (nmi_allowed_abs absq). refine (runs_mono _ _ _ _ (nmi_follows FL ch absq OK c Hw)).
  intros x bl cl HD H. cbv beta in H. destruct (nmi_enabled (abs absq c)).
  - destruct H as (_ & W & o & _ & H). split; [exact W|]. assert (H' := H). apply nmi_control in H'. split; [apply H'|].
    unfold accept_nmi, push, done in H. clear H'. accs. reflexivity.
  - destruct H as (-> & -> & ->). split; [exact Hw|]. split; [|reflexivity]. symmetry. apply r_plus_0.
Qed.

(** ** C10: any number of steps *)
Definition no_ld_r_a (ops : list Z) : Prop := forall p q, ops <> p ++ [0xED; 0x4F] ++ q.
Lemma opcodes_app (b1 b2 : list (bev WB RB)) : opcodes (b1 ++ b2) = opcodes b1 ++ opcodes b2.
Proof. apply flat_map_app. Qed.
Lemma steps_r n : forall c, wf c ->
  runs (steps FL n c) (fun c' bl cl => wf c' /\ (no_ld_r_a (opcodes bl) -> get_r c' = r_plus (m1s cl) (get_r c))).
Proof.
  induction n as [|n IH]; intros c Hw; cbn [steps].
  - apply runs_ret. split; [exact Hw|]. intros _. symmetry. apply r_plus_0.
  - apply (runs_bind _ _ _ _ (execute_next_r false c Hw)). intros x bl cl HD [W HR].
    refine (runs_mono _ _ _ _ (IH (fst x) W)). intros c' bl' cl' _ [W' HR']. split; [exact W'|].
    rewrite opcodes_app. intros N. rewrite HR', HR.
    + destruct (is_ld_r_a (opcodes bl)) eqn:E.
      * exfalso. apply leqb_spec in E. apply (N [] (opcodes bl')). rewrite E. reflexivity.
      * rewrite r_plus_plus, m1s_app. reflexivity.
    + intros p q E. apply (N (opcodes bl ++ p) q). rewrite E, app_assoc. reflexivity.
Qed.
Lemma add_r_plus d c : wf c -> get_r (add_r d c) = r_plus d (get_r c).
Proof. intros Hw. exact (get_r_add d c Hw). Qed.

(** ** C13 *)
Definition pfx_code (p : Prefix) : Z := match p with Xdd => 0xDD | Yfd => 0xFD end.
Lemma set_get_flags c : wf c -> set_flags (get_flags c) c = c.
Proof.
  intros Hw. unfold set_flags, get_flags, set8lo. destruct Hw. rewrite mk_hi_lo by assumption. now destruct c.
Qed.
Lemma prefix_only p c : wf c ->
  execute_instruction (TS:=TS) (WB:=WB) (RB:=RB) FL false (pfx_code p) c =
  Ret (set_prefix (Some p) (set_flavour (begin_instruction FL (flavour c)) (set_halt false (set_last_ei false c))), None).
Proof.
  intros Hw. transitivity (Ret (TS:=TS) (WB:=WB) (RB:=RB) (set_prefix (Some p) (set_flavour (begin_instruction FL (flavour c))
    (set_halt false (set_last_ei false (set_flags (get_flags c) c)))), @None (break_cause WB RB)));
    [clear Hw|now rewrite set_get_flags].
  unfold execute_instruction. destruct c as [? ? ? ? ? ? ? ? ? ? ? ? ? ? ? ? ? ? ? [px|] ? ?], p; reflexivity.
Qed.
Lemma prefix_chain l : forall c, wf c -> (forall x, In x l -> x = 0xDD \/ x = 0xFD) -> l <> [] ->
  exists c', exec_list (TS:=TS) (WB:=WB) (RB:=RB) FL l c = Ret c' /\ prefix c' = pfx_of (last l 0) /\
    last_ei c' = false /\ halt c' = false /\ wf c' /\
    (af c', bc c', de c', hl c', ix c', iy c', sp c', pc c', memptr c', ir c', r c') =
    (af c, bc c, de c, hl c, ix c, iy c, sp c, pc c, memptr c, ir c, r c) /\
    (af_alt c', bc_alt c', de_alt c', hl_alt c', im c', iff1 c', iff2 c') =
    (af_alt c, bc_alt c, de_alt c, hl_alt c, im c, iff1 c, iff2 c).
Proof.
  induction l as [|x l IH]; intros c Hw HI N; [contradiction|]. cbn [exec_list].
  assert (E : exists p, x = pfx_code p)
    by (destruct (HI x (or_introl eq_refl)) as [-> | ->]; [now exists Xdd|now exists Yfd]).
  destruct E as [p ->]. rewrite (prefix_only p c Hw). cbn [pbind fst].
  set (c1 := set_prefix _ _). assert (Hw1 : wf c1) by (subst c1; destruct Hw; constructor; assumption).
  destruct l as [|y l].
  - exists c1. split; [reflexivity|]. split; [now destruct p|]. repeat (split; [reflexivity||exact Hw1|]). reflexivity.
  - destruct (IH c1 Hw1) as (c' & E1 & E2 & E3 & E4 & E5 & E6 & E7); [intros z Hz; apply HI; now right|discriminate|].
    exists c'. split; [exact E1|]. split; [exact E2|]. repeat (split; [assumption|]). exact E7.
Qed.

(** ** C14 *)
Lemma ignored_converse code : byte code -> uses_hl (decode code) = false ->
  decode_pfx code = P_IGNORE \/ code = 0xDD \/ code = 0xFD.
Proof.
  intros Hc. assert (E : (uses_hl (decode code) || (match decode_pfx code with P_IGNORE => true | _ => false end)
     || (code =? 0xDD) || (code =? 0xFD)) = true).
  { revert code Hc. match goal with |- forall x, byte x -> (@?P x) = true => apply (all1_spec P) end. vm_compute. reflexivity. }
  intros D. rewrite D in E. cbn [orb] in E. rewrite !orb_true_iff, !Z.eqb_eq in E.
  destruct (decode_pfx code); intuition discriminate.
Qed.
Lemma prefix_ignored code c : byte code -> uses_hl (decode code) = false -> wf c ->
  forall BS CK (Hs : host TS WB RB BS CK) b k,
  runl Hs (execute_instruction FL false code c) b k = runl Hs (execute_instruction FL false code (set_prefix None c)) b k.
Proof.
  intros Hc HU Hw BS CK Hs b k. destruct (ignored_converse code Hc HU) as [D|D].
  - unfold execute_instruction. cbv zeta.
    transitivity (runl Hs (pbind (exec_code FL false code
      (mkSt (set_halt false (set_last_ei false c)) (get_flags c) (pc c) None))
        (fun x => Ret (store_st (fst x), to_result (snd x)))) b k).
    + f_equal. f_equal. unfold load_st. cbn [prefix set_halt set_last_ei pc]. destruct (prefix c) as [px|] eqn:E; [|reflexivity].
      rewrite exec_code_ignore by exact D. now rewrite exec_code_none.
    + apply (exec_same FL false code). split; [reflexivity|]. split; [reflexivity|]. split; [reflexivity|].
      exists (af c), (pc c), None. split; reflexivity.
  - assert (Hw' : wf (set_prefix None c)) by (destruct Hw; constructor; assumption).
    assert (E : exists p, code = pfx_code p) by (destruct D as [-> | ->]; [now exists Xdd|now exists Yfd]).
    destruct E as [p ->]. rewrite !prefix_only by assumption. reflexivity.
Qed.
End Ctl.
