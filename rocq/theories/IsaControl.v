(** The facts of [IsaFacts] for the crate's entry points. *)
From Coq Require Import ZArith Bool List Lia.
From Verif Require Import Base Flags Ops Parse Cpu Flavours Prog Trace Internal Instr Exec Range SafeRun Clock ClockProofs
  SpecAlu SpecState SpecIsa SpecCycles SpecStep IsaLink IsaCycles IsaFacts IsaExec IsaRun Steps.
Import ListNotations.
Open Scope Z_scope.

Section Spec.
Context {T WB RB : Type}.
Variable ch : chip T.
Notation state := (arch T).
Notation bevs := (list (bev WB RB)).

(** What the whole step executed: op-code [c], the state before it and the accesses after its fetch. *)
Lemma isbyte_byte c : byte c -> isbyte c. Proof. exact (fun H => H). Qed.
Lemma ld_r_a_decode x : isbyte x -> (match ed_decode x with D_LD_R_A => true | _ => false end) = (x =? 0x4F).
Proof. intros H. apply eqb_prop. revert x H. apply all_bytesb. vm_compute. reflexivity. Qed.
Lemma retn_decode x : isbyte x ->
  (match ed_decode x with D_RETN | D_RETI => true | _ => false end) = ((x / 64 =? 1) && (x mod 8 =? 5)).
Proof. intros H. apply eqb_prop. revert x H. apply all_bytesb. vm_compute. reflexivity. Qed.
Lemma decode_fb c : isbyte c -> (match decode c with I_EI => true | _ => false end) = (c =? 0xFB).
Proof. intros H. apply eqb_prop. revert c H. apply all_bytesb. vm_compute. reflexivity. Qed.
Lemma decode_f3 c : isbyte c -> (match decode c with I_DI => true | _ => false end) = (c =? 0xF3).
Proof. intros H. apply eqb_prop. revert c H. apply all_bytesb. vm_compute. reflexivity. Qed.
Lemma decode_76 c : isbyte c -> (match decode c with I_HALT => true | _ => false end) = (c =? 0x76).
Proof. intros H. apply eqb_prop. revert c H. apply all_bytesb. vm_compute. reflexivity. Qed.
Lemma decode_ed' c : isbyte c -> (match decode c with I_ED => true | _ => false end) = (c =? 0xED).
Proof. intros H. apply eqb_prop. revert c H. apply all_bytesb. vm_compute. reflexivity. Qed.
Definition pfx_of (c : Z) : option Prefix := if c =? 0xDD then Some Xdd else if c =? 0xFD then Some Yfd else None.
Definition opfx_eqb (p q : option Prefix) : bool :=
  match p, q with None, None | Some Xdd, Some Xdd | Some Yfd, Some Yfd => true | _, _ => false end.
Lemma decode_pfx' c : isbyte c -> (match decode c with I_PFX p => Some p | _ => None end) = pfx_of c.
Proof.
  intros H. assert (E : opfx_eqb (match decode c with I_PFX p => Some p | _ => None end) (pfx_of c) = true)
    by (revert c H; apply all_bytesb; vm_compute; reflexivity).
  destruct (match decode c with I_PFX p => Some p | _ => None end) as [[]|], (pfx_of c) as [[]|]; congruence || discriminate.
Qed.
Lemma leqb_spec l m : leqb l m = true <-> l = m.
Proof.
  revert m. induction l as [|x l IH]; intros [|y m]; cbn; try (split; congruence).
  rewrite andb_true_iff, Z.eqb_eq, IH. split; [intros [-> ->]; reflexivity|intros [= -> ->]; auto].
Qed.
Lemma exec_control c (a : state) (bl : bevs) cl a' o : isbyte c -> Forall data_byte bl ->
  accepts (exec_op ch c a) bl cl (a', o) ->
  aPX a' = pfx_of c /\ aEI a' = (aEI a || (c =? 0xFB)) /\ aHALT a' = (aHALT a || (c =? 0x76)) /\
  aIFF2 a' = (if c =? 0xF3 then false else if c =? 0xFB then true else aIFF2 a) /\
  aIFF1 a' = (if c =? 0xF3 then false else if c =? 0xFB then true
              else if is_retn (c :: opcodes bl) then aIFF2 a else aIFF1 a) /\
  aR a' = (if is_ld_r_a (c :: opcodes bl) then aA a else r_plus (m1s cl) (aR a)) /\
  (o = OHalt <-> c = 0x76) /\ (o = OEI <-> c = 0xFB).
Proof.
  intros Hc HD H. apply exec_facts in H; [|assumption..]. destruct H as (HK & HO & HB & HOP).
  assert (E1 := decode_fb c Hc). assert (E2 := decode_f3 c Hc). assert (E3 := decode_76 c Hc).
  assert (E4 := decode_ed' c Hc). assert (E5 := decode_pfx' c Hc).
  rewrite <- (Z.eqb_eq c 0x76), <- (Z.eqb_eq c 0xFB), <- E1, <- E2, <- E3, <- E5.
  assert (NED : decode c <> I_ED -> is_retn (c :: opcodes bl) = false /\ is_ld_r_a (c :: opcodes bl) = false).
  { intros N. assert (NC : c <> 0xED) by (intros ->; now apply N). split.
    - unfold is_retn. assert (forall l, match c :: l with [0xED; x] => (x / 64 =? 1) && (x mod 8 =? 5) | _ => false end = false); [|auto].
      intros l. destruct (Z.eq_dec c 0xED); [contradiction|]. clear - n.
      destruct c as [|p|p]; try reflexivity. do 8 (destruct p as [p|p|]; try reflexivity). congruence.
    - unfold is_ld_r_a. cbn [leqb]. apply Z.eqb_neq in NC. rewrite NC. reflexivity. }
  unfold exec_ctl in HK.
  assert (EC : decode c = I_ED \/ decode c <> I_ED) by (destruct (decode c); auto; right; discriminate).
  destruct EC as [EC|EC].
  - specialize (HB EC). rewrite EC in HOP, HK, HO. rewrite EC in E4.
    rewrite EC. symmetry in E4. apply Z.eqb_eq in E4. subst c.
    assert (E6 := ld_r_a_decode _ HB). assert (E7 := retn_decode _ HB).
    rewrite HOP. unfold is_ld_r_a. cbn [leqb is_retn]. rewrite <- E6, <- E7, andb_true_r. cbn [andb].
    rewrite !orb_false_r. change (0xED =? 0xED) with true. cbn [andb].
    cbn [outs] in HO. destruct HO as [O1 O2].
    unfold ctl_of in HK. destruct (ed_decode (first_op bl)); injection HK as K1 K2 K3 K4 K5 K6 K7 K8;
      repeat split; try assumption; intros; try congruence.
  - destruct (NED EC) as [-> ->]. unfold ctl_of in HK.
    destruct (decode c); try congruence; injection HK as K1 K2 K3 K4 K5 K6 K7 K8;
      cbn [outs] in HO; rewrite ?orb_false_r, ?orb_true_r; repeat split; try assumption; intros; try congruence;
      try discriminate; try (destruct HO as [->|[w ->]]; discriminate).
Qed.
(** Interrupts. *)
Definition int_ops (a : state) (bl : bevs) : list Z := match aIM a with Mode0 => opcodes bl | _ => [] end.
Lemma resume_ctl (a : state) :
  aIM (resume a) = aIM a /\ aA (resume a) = aA a /\ aR (resume a) = aR a /\ aIFF1 (resume a) = aIFF1 a /\
  aIFF2 (resume a) = aIFF2 a /\ aEI (resume a) = aEI a /\ aPX (resume a) = aPX a /\ aHALT (resume a) = false /\
  aI (resume a) = aI a.
Proof. unfold resume. destruct (aHALT a) eqn:E; repeat split; exact E. Qed.
Lemma int_control (a : state) (bl : bevs) cl a' o : Forall data_byte bl ->
  accepts (accept_int ch a) bl cl (a', o) ->
  exists p v w bl', bl = VAck p v w :: bl' /\ isbyte v /\
  aIFF2 a' = (match aIM a with Mode0 => v =? 0xFB | _ => false end) /\
  aIFF1 a' = (match aIM a with Mode0 => v =? 0xFB | _ => false end) /\
  aEI a' = (match aIM a with Mode0 => v =? 0xFB | _ => false end) /\
  aHALT a' = (match aIM a with Mode0 => v =? 0x76 | _ => false end) /\
  aPX a' = (match aIM a with Mode0 => pfx_of v | _ => None end) /\
  aR a' = (if is_ld_r_a (opcodes bl) then aA a else r_plus (m1s cl) (aR a)) /\
  (o = OHalt <-> aIM a = Mode0 /\ v = 0x76) /\ (o = OEI <-> aIM a = Mode0 /\ v = 0xFB).
Proof.
  intros HD H. unfold accept_int in H. apply acc_ack in H. destruct H as (v & w & bl' & cl' & -> & -> & H).
  inversion HD as [|? ? D1 D2]; subst. cbn [data_byte] in D1.
  destruct (resume_ctl (inc_R (wIFF1 false (wIFF2 false a)))) as (R1 & R2 & R3 & R4 & R5 & R6 & R7 & R8 & _).
  set (a1 := resume _) in *. exists (aPC a1), v, w, bl'. split; [reflexivity|]. split; [exact D1|].
  clearbody a1. cbn [aIM aA aR aIFF1 aIFF2 aEI aPX inc_R wR wIFF1 wIFF2] in R1, R2, R3, R4, R5, R6, R7.
  assert (EO : opcodes (VAck (aPC a1) v w :: bl') = v :: opcodes bl') by reflexivity. rewrite EO. clear EO.
  assert (EM : m1s (TAck (aPC a1) :: (match w with Some n => [TWait (aPC a1) n] | None => [] end) ++ cl') = 1 + m1s cl')
    by (rewrite m1s_cons, m1s_app; destruct w; reflexivity).
  rewrite EM. clear EM.
  assert (ER : aR a1 = r_plus 1 (aR a)) by exact R3.
  rewrite R1 in H. cbv zeta in H. destruct (aIM a).
  - unfold exec in H. apply exec_control in H; [|assumption..].
    cbn [aPX aEI aHALT aIFF1 aIFF2 aR aA wEI wHALT orb] in H. rewrite R2, R4, R5, ER, r_plus_plus in H.
    destruct H as (H1 & H2 & H3 & H4 & H5 & H6 & H7 & H8).
    repeat split; try assumption; try (intros; now apply H7); try (intros; now apply H8).
    + destruct (v =? 0xF3) eqn:F; [|destruct (v =? 0xFB); exact H4]. apply Z.eqb_eq in F. subst v. exact H4.
    + destruct (v =? 0xF3) eqn:F; [apply Z.eqb_eq in F; subst v; exact H5|]. destruct (v =? 0xFB); [exact H5|].
      destruct (is_retn _); exact H5.
  - unfold push, done in H. accs. match goal with X : (_, _) = (a', o) |- _ => injection X as <- <- end.
    cbn [jump wPC wWZ wSP wEI wPX wQ aIFF1 aIFF2 aEI aHALT aPX aR].
    unfold is_ld_r_a. cbn [opcodes flat_map app leqb]. rewrite andb_false_r, ER.
    repeat split; try assumption; try discriminate; try now intros [? _].
  - unfold push, rd16, done in H. accs. match goal with X : (_, _) = (a', o) |- _ => injection X as <- <- end.
    cbn [jump wPC wWZ wSP wEI wPX wQ aIFF1 aIFF2 aEI aHALT aPX aR].
    unfold is_ld_r_a. cbn [opcodes flat_map app leqb]. rewrite andb_false_r, ER.
    repeat split; try assumption; try discriminate; try now intros [? _].
Qed.
Lemma nmi_control (a : state) (bl : bevs) cl a' o :
  accepts (accept_nmi ch a) bl cl (a', o) ->
  aIFF1 a' = false /\ aIFF2 a' = aIFF2 a /\ aEI a' = false /\ aHALT a' = false /\ aPX a' = aPX a /\
  aR a' = r_plus (m1s cl) (aR a) /\ opcodes bl = [] /\ o = ONext.
Proof.
  intros H. unfold accept_nmi, push, done in H.
  destruct (resume_ctl (inc_R (wIFF1 false (wEI false a)))) as (R1 & R2 & R3 & R4 & R5 & R6 & R7 & R8 & _).
  set (a1 := resume _) in *. clearbody a1. accs. match goal with X : (_, _) = (a', o) |- _ => injection X as <- <- end.
  repeat split; assumption || reflexivity.
Qed.
Lemma fetch_control (a : state) (bl : bevs) cl a' o : Forall data_byte bl ->
  accepts (fetch a (exec ch)) bl cl (a', o) ->
  exists ir v bl' cl', bl = VOp (aPC a) ir v :: bl' /\ cl = TM1 (aPC a) :: cl' /\ isbyte v /\ Forall data_byte bl' /\
    accepts (exec ch v (wPC (w16 (aPC a + 1)) (inc_R a))) bl' cl' (a', o).
Proof.
  intros HD H. unfold fetch in H. cbv zeta in H. apply acc_m1 in H. destruct H as (v & bl' & cl' & -> & -> & H).
  inversion HD as [|? ? D1 D2]; subst. cbn [data_byte] in D1. exists (IR (inc_R a)), v, bl', cl'. auto 10.
Qed.
(** A step is an interrupt, an idle cycle or an instruction. *)
Definition irq_sample (a : state) (b : bool) : bevs := if int_enabled a then [VIrq b] else [].
Inductive next_case (a : state) (bl : bevs) (cl : list tev) (a' : state) (o : outcome WB RB) : Prop :=
| nc_int bl' : int_enabled a = true -> bl = VIrq true :: bl' -> Forall data_byte bl' ->
    accepts (accept_int ch a) bl' cl (a', o) -> next_case a bl cl a' o
| nc_idle : aHALT a = true -> bl = irq_sample a false -> cl = [TM1 (aPC a)] ->
    a' = inc_R a -> o = ONext -> next_case a bl cl a' o
| nc_ins ir v bl' cl' : aHALT a = false -> bl = irq_sample a false ++ VOp (aPC a) ir v :: bl' -> cl = TM1 (aPC a) :: cl' ->
    isbyte v -> Forall data_byte bl' -> accepts (exec ch v (wPC (w16 (aPC a + 1)) (inc_R a))) bl' cl' (a', o) ->
    next_case a bl cl a' o.
Lemma next_cases (a : state) (bl : bevs) cl a' o : Forall data_byte bl ->
  accepts (next ch a) bl cl (a', o) -> next_case a bl cl a' o.
Proof.
  intros HD H. unfold next in H. cbv zeta in H.
  assert (G : forall bl', Forall data_byte bl' -> bl = irq_sample a false ++ bl' ->
     accepts (if aHALT a then SIdleM1 (aPC a) (done (inc_R a)) else fetch a (exec ch)) bl' cl (a', o) ->
     next_case a bl cl a' o).
  { intros bl' HD' E' H'. clear H. destruct (aHALT a) eqn:EH.
    - unfold done in H'. accs. match goal with X : (_, _) = (a', o) |- _ => injection X as <- <- end.
      apply nc_idle; auto. apply app_nil_r.
    - apply fetch_control in H'; [|assumption]. destruct H' as (ir & v & b2 & c2 & -> & -> & HV & HD2 & H2).
      now apply (nc_ins a _ _ _ _ ir v b2 c2). }
  unfold irq_sample in G. destruct (int_enabled a) eqn:EI.
  - apply acc_irq in H. destruct H as (b & bl' & -> & H). inversion HD as [|? ? D1 D2]; subst. destruct b.
    + now apply (nc_int _ _ _ _ _ bl').
    + now apply (G bl').
  - now apply (G bl).
Qed.
Lemma next_R (a : state) (bl : bevs) cl a' o : Forall data_byte bl -> accepts (next ch a) bl cl (a', o) ->
  aR a' = if is_ld_r_a (opcodes bl) then aA a else r_plus (m1s cl) (aR a).
Proof.
  intros HD H. apply next_cases in H; [|exact HD]. destruct H as [bl' HI -> HD' H|HH -> -> -> _|ir v bl' cl' HH -> -> HV HD' H].
  - apply int_control in H; [|assumption]. destruct H as (p & v & w & bl2 & E & _ & _ & _ & _ & _ & _ & HR & _). exact HR.
  - unfold irq_sample. destruct (int_enabled a); reflexivity.
  - unfold exec in H. apply exec_control in H; [|assumption..]. destruct H as (_ & _ & _ & _ & _ & HR & _).
    rewrite HR. cbn [aR aA wEI wHALT wPC inc_R wR].
    rewrite m1s_cons. assert (EO : opcodes (irq_sample a false ++ VOp (aPC a) ir v :: bl') = v :: opcodes bl')
      by (unfold irq_sample; destruct (int_enabled a); reflexivity).
    rewrite EO. destruct (is_ld_r_a _); [reflexivity|].
    match goal with |- r_plus _ ?x = _ => change x with (r_plus 1 (aR a)) end. rewrite r_plus_plus. reflexivity.
Qed.
End Spec.
