(** Interrupt responses, HALT, stack: proofs for [PropInt]. *)
From Coq Require Import ZArith Bool List Lia.
From Verif Require Import Base Flags Ops Parse Cpu Flavours Prog Trace Internal Instr Exec Range SafeRun Clock ClockProofs
  SpecAlu SpecState SpecIsa SpecCycles SpecStep SpecInt IsaLink IsaCycles IsaExec IsaRun Steps.
Import ListNotations.
Open Scope Z_scope.
Ltac Zify.zify_post_hook ::= Z.div_mod_to_equations.

Section Fields.
Context {Q T : Type}.
Variable absq : Q -> T.
Implicit Types c : cpu Q.
Record fields c (a : arch T) : Prop := mkFields {
  f_a : get_acc c = aA a; f_f : get_flags c = aF a; f_bc : bc c = aBC a; f_de : de c = aDE a; f_hl : hl c = aHL a;
  f_af' : af_alt c = aAF' a; f_bc' : bc_alt c = aBC' a; f_de' : de_alt c = aDE' a; f_hl' : hl_alt c = aHL' a;
  f_ix : ix c = aIX a; f_iy : iy c = aIY a; f_sp : sp c = aSP a; f_pc : pc c = aPC a; f_wz : memptr c = aWZ a;
  f_i : get_i c = aI a; f_r : get_r c = aR a; f_im : im c = aIM a; f_iff1 : iff1 c = aIFF1 a; f_iff2 : iff2 c = aIFF2 a;
  f_halt : halt c = aHALT a; f_ei : last_ei c = aEI a; f_px : prefix c = aPX a }.
Lemma abs_fields c a : a = abs absq c -> fields c a.
Proof. intros ->. constructor; reflexivity. Qed.
Lemma af_split c : wf c -> af c = 256 * get_acc c + get_flags c.
Proof. intros [H]. unfold get_acc, get_flags, hi8, lo8, word in *. lia. Qed.
Lemma af_eq c c' : wf c -> wf c' -> get_acc c' = get_acc c -> get_flags c' = get_flags c -> af c' = af c.
Proof. intros H H' E F. now rewrite (af_split c), (af_split c'), E, F. Qed.
Lemma wf_taken c : wf c -> wf (taken c).
Proof. intros [ ]. constructor; cbn; try assumption; unfold return_to, u8, byte, word in *; try destruct (halt c); lia. Qed.
End Fields.
(* leaves [FF : fields c' (...)] *)
Ltac fin c' := match goal with X : (_, _) = (abs _ c', _) |- _ =>
  let FF := fresh "FF" in
  apply pair_equal_spec in X; destruct X as [FF X]; apply abs_fields in FF; subst end.
Ltac cf FF := destruct FF; cbn [wPC wWZ wSP wEI wPX wQ wIFF1 wIFF2 wHALT wR wI wIM wA wF wBC wDE wHL wIX wIY inc_R jump
  aA aF aBC aDE aHL aAF' aBC' aDE' aHL' aIX aIY aSP aPC aWZ aI aR aIM aIFF1 aIFF2 aHALT aEI aPX aQ abs] in *.

Section Ints.
Context {Q T TS WB RB : Type}.
Variable FL : Flavour Q.
Variable ch : chip T.
Variable absq : Q -> T.
Hypothesis OK : chip_ok FL ch absq.
Implicit Types c : cpu Q.
Notation prog := (prog TS WB RB).
Notation bevs := (list (bev WB RB)).

Lemma resume_abs c : resume (inc_R (wIFF1 false (wIFF2 false (abs absq c)))) =
  wPC (return_to c) (wHALT false (inc_R (wIFF1 false (wIFF2 false (abs absq c))))).
Proof.
  unfold resume, return_to. cbn [inc_R wIFF1 wIFF2 wR aHALT abs]. destruct (halt c) eqn:E; [reflexivity|].
  unfold inc_R, abs, wPC, wHALT. cbn. now rewrite E.
Qed.
Lemma irq_mode1 dbg c : wf c -> is_irq_allowed c = true -> im c = Mode1 ->
  runs (TS:=TS) (WB:=WB) (RB:=RB) (irq FL dbg c) (fun x bl cl => exists v w,
    wf (fst x) /\ snd x = Some None /\ bl = VAck (return_to c) v w :: pushes c (return_to c) /\
    cl = ack (return_to c) w ++ push_cycles c /\ tsum cl = 13 + waits bl /\ after_int c (fst x) 0x38).
Proof.
  intros Hw HI HM. generalize (irq_follows (TS:=TS) (WB:=WB) (RB:=RB) FL ch absq OK dbg c Hw). apply runs_mono.
  intros [c' r'] bl cl HD. cbn [fst snd]. rewrite <- allowed_abs, HI. intros (r & -> & W & o & -> & HA).
  assert (HT := int_documented ch (abs absq c) _ _ _ (wf_bc _ Hw) HD HA). unfold int_time in HT. cbn [aIM abs] in HT. rewrite HM in HT.
  unfold accept_int in HA. cbv zeta in HA. rewrite resume_abs in HA. cbn [aIM abs inc_R wPC wHALT wIFF1 wIFF2 wR] in HA. rewrite HM in HA.
  unfold push, done in HA. accs. fin c'.
  eexists _, _. split; [exact W|]. split; [reflexivity|]. split; [reflexivity|]. split; [reflexivity|].
  split; [exact HT|]. clear HT. cf FF. constructor; auto. constructor; auto. now apply af_eq.
Qed.
Lemma irq_mode2 dbg c : wf c -> is_irq_allowed c = true -> im c = Mode2 ->
  runs (TS:=TS) (WB:=WB) (RB:=RB) (irq FL dbg c) (fun x bl cl => exists v w l h,
    let vec := 256 * get_i c + v in
    wf (fst x) /\ snd x = Some None /\
    bl = VAck (return_to c) v w :: pushes c (return_to c) ++ [VRd vec l; VRd ((vec + 1) mod 65536) h] /\
    cl = ack (return_to c) w ++ push_cycles c ++ [TMreq vec; TMreq ((vec + 1) mod 65536)] /\
    tsum cl = 19 + waits bl /\ after_int c (fst x) (256 * h + l)).
Proof.
  intros Hw HI HM. generalize (irq_follows (TS:=TS) (WB:=WB) (RB:=RB) FL ch absq OK dbg c Hw). apply runs_mono.
  intros [c' r'] bl cl HD. cbn [fst snd]. rewrite <- allowed_abs, HI. intros (r & -> & W & o & -> & HA).
  assert (HT := int_documented ch (abs absq c) _ _ _ (wf_bc _ Hw) HD HA). unfold int_time in HT. cbn [aIM abs] in HT. rewrite HM in HT.
  unfold accept_int in HA. cbv zeta in HA. rewrite resume_abs in HA. cbn [aIM abs inc_R wPC wHALT wIFF1 wIFF2 wR] in HA. rewrite HM in HA.
  unfold push, rd16, done in HA. accs. fin c'. cbv zeta.
  do 4 eexists. split; [exact W|]. split; [reflexivity|]. split; [reflexivity|]. split; [reflexivity|].
  split; [exact HT|]. clear HT. cf FF. constructor; auto. constructor; auto. now apply af_eq.
Qed.
Lemma abs_taken c : abs absq (taken c) = wPC (return_to c) (wHALT false (inc_R (wIFF1 false (wIFF2 false (abs absq c))))).
Proof. unfold taken. rewrite abs_inc_r. reflexivity. Qed.
Lemma irq_mode0 dbg c : wf c -> is_irq_allowed c = true -> im c = Mode0 ->
  runs (TS:=TS) (WB:=WB) (RB:=RB) (irq FL dbg c) (fun x bl cl => exists v w bl' cl' r, byte v /\
    snd x = Some r /\ bl = VAck (return_to c) v w :: bl' /\ cl = ack (return_to c) w ++ cl' /\
    as_spec absq (exec ch v (abs absq (taken c))) (fst x) r bl' cl' /\
    tsum cl = documented None v bl' (abs absq c) + 2 + waits bl).
Proof.
  intros Hw HI HM. generalize (irq_follows (TS:=TS) (WB:=WB) (RB:=RB) FL ch absq OK dbg c Hw). apply runs_mono.
  intros [c' r'] bl cl HD. cbn [fst snd]. rewrite <- allowed_abs, HI. intros (r & -> & W & o & -> & HA).
  assert (HT := int_documented ch (abs absq c) _ _ _ (wf_bc _ Hw) HD HA).
  unfold accept_int in HA. cbv zeta in HA. rewrite resume_abs, <- abs_taken in HA.
  cbn [aIM abs taken inc_r set_iffs set_halt set_pc set_rfield im] in HA. rewrite HM in HA.
  acc1. inversion HD; subst.
  exists x, x0, x1, x2, (result_of o). split; [assumption|]. repeat (split; [reflexivity|]). split.
  - split; [exact W|]. exists o. split; [reflexivity|exact HA].
  - rewrite HT. unfold int_time. cbn [aIM aPX abs]. rewrite HM.
    unfold is_irq_allowed, is_int_allowed in HI. destruct (prefix c); [destruct (iff1 c); discriminate|]. lia.
Qed.
Lemma resume_abs_n c : resume (inc_R (wIFF1 false (wEI false (abs absq c)))) =
  wPC (return_to c) (wHALT false (inc_R (wIFF1 false (wEI false (abs absq c))))).
Proof.
  unfold resume, return_to. cbn [inc_R wIFF1 wEI wR aHALT abs]. destruct (halt c) eqn:E; [reflexivity|].
  unfold inc_R, abs, wPC, wHALT. cbn. now rewrite E.
Qed.
Lemma nmi_effect c : wf c -> is_nmi_allowed c = true ->
  runs (TS:=TS) (WB:=WB) (RB:=RB) (nmi FL c) (fun x bl cl =>
    wf (fst x) /\ snd x = true /\ bl = pushes c (return_to c) /\ cl = TM1 (return_to c) :: push_cycles c /\ after_nmi c (fst x)).
Proof.
  intros Hw HI. generalize (nmi_follows (TS:=TS) (WB:=WB) (RB:=RB) FL ch absq OK c Hw). apply runs_mono.
  unfold is_nmi_allowed in HI. rewrite <- nmi_allowed_abs, HI.
  intros [c' r'] bl cl _. cbn [fst snd]. intros (-> & W & o & EO & HA).
  unfold accept_nmi in HA. cbv zeta in HA. rewrite resume_abs_n in HA.
  unfold push, done in HA. accs. fin c'.
  split; [exact W|]. split; [reflexivity|]. split; [reflexivity|]. split; [reflexivity|].
  assert (HE : last_ei c = false) by (unfold is_int_allowed in HI; clear - HI; destruct (prefix c), (last_ei c); cbn in HI; congruence).
  cf FF. constructor; auto. constructor; auto. now apply af_eq. congruence.
Qed.

(** ** Single instructions *)
Ltac one Hw code :=
  match goal with |- runs (execute_instruction ?F ?d ?x ?c) _ =>
    generalize (execute_instruction_follows (TS:=TS) (WB:=WB) (RB:=RB) FL ch absq OK d x c code Hw); apply runs_mono end;
  let HD := fresh "HD" in let W := fresh "W" in let o := fresh "o" in let HA := fresh "HA" in
  intros [c' r'] bl cl HD (W & o & EO & HA); cbn [fst snd] in *; subst r'.
Lemma exec_halt dbg c : wf c ->
  runs (TS:=TS) (WB:=WB) (RB:=RB) (execute_instruction FL dbg 0x76 c) (fun x bl cl =>
    wf (fst x) /\ snd x = Some BHalt /\ bl = [] /\ cl = [] /\ keeps c (fst x) /\ pc (fst x) = (pc c - 1) mod 65536 /\
    sp (fst x) = sp c /\ memptr (fst x) = memptr c /\ iff1 (fst x) = iff1 c /\ iff2 (fst x) = iff2 c /\
    halt (fst x) = true /\ last_ei (fst x) = false /\ prefix (fst x) = None /\ get_r (fst x) = get_r c).
Proof.
  intros Hw. assert (HC : byte 0x76) by (unfold byte; lia). one Hw HC.
  unfold exec, exec_op in HA. change (decode 0x76) with I_HALT in HA. cbn [step] in HA. accs. fin c'. cf FF.
  split; [exact W|]. repeat (split; [reflexivity|]). split; [|repeat split; assumption].
  constructor; auto. now apply af_eq.
Qed.
(** PUSH and POP number [n]. *)
Definition in4 (n : Z) : Prop := 0 <= n < 4.
Lemma in4_cases n : in4 n -> n = 0 \/ n = 1 \/ n = 2 \/ n = 3. Proof. unfold in4. lia. Qed.
Definition stk (n : Z) : StkReg16 := match n with 0 => Parse.SBC | 1 => SDE | 2 => SHL | _ => SAF end.
Lemma dec_push n : in4 n -> decode (0xC5 + 16 * n) = I_PUSH (stk n).
Proof. intros H. destruct (in4_cases n H) as [->|[->|[->| ->]]]; reflexivity. Qed.
Lemma dec_pop n : in4 n -> decode (0xC1 + 16 * n) = I_POP (stk n).
Proof. intros H. destruct (in4_cases n H) as [->|[->|[->| ->]]]; reflexivity. Qed.
Lemma rp2_pair n c px : in4 n -> wf c -> g_rp2 px (stk n) (abs absq c) = pair px n c.
Proof.
  intros H Hw. destruct (in4_cases n H) as [->|[->|[->| ->]]]; destruct px as [[]|]; try reflexivity; cbn.
  all: unfold word_of; now rewrite (af_split c Hw).
Qed.
Lemma exec_push dbg c n : wf c -> in4 n ->
  runs (TS:=TS) (WB:=WB) (RB:=RB) (execute_instruction FL dbg (0xC5 + 16 * n) c) (fun x bl cl =>
    wf (fst x) /\ snd x = None /\ bl = pushes c (pair (prefix c) n c) /\ keeps c (fst x) /\ pc (fst x) = pc c /\
    sp (fst x) = (sp c - 2) mod 65536).
Proof.
  intros Hw Hn. assert (HC : byte (0xC5 + 16 * n)) by (unfold byte, in4 in *; lia). one Hw HC.
  unfold exec, exec_op in HA. rewrite (dec_push n Hn) in HA. cbn [step] in HA. unfold push, done in HA. accs. fin c'.
  assert (EP : g_rp2 (prefix c) (stk n) (wPX None (wQ (c_begin ch (absq (flavour c))) (wEI false (wHALT false (abs absq c))))) =
    pair (prefix c) n c) by (rewrite <- rp2_pair by assumption; reflexivity).
  cf FF. rewrite EP. split; [exact W|]. repeat (split; [reflexivity|]). split; [|auto].
  constructor; auto. now apply af_eq.
Qed.
Lemma exec_pop dbg c n : wf c -> in4 n ->
  runs (TS:=TS) (WB:=WB) (RB:=RB) (execute_instruction FL dbg (0xC1 + 16 * n) c) (fun x bl cl =>
    wf (fst x) /\ snd x = None /\ exists l h, bl = [VRd (sp c) l; VRd ((sp c + 1) mod 65536) h] /\
    only_pair (prefix c) n (256 * h + l) (set_sp ((sp c + 2) mod 65536) c) (fst x)).
Proof.
  intros Hw Hn. assert (HC : byte (0xC1 + 16 * n)) by (unfold byte, in4 in *; lia). one Hw HC.
  unfold exec, exec_op in HA. rewrite (dec_pop n Hn) in HA. cbn [step] in HA. unfold pop, rd16, done in HA. accs. fin c'.
  split; [exact W|]. split; [reflexivity|]. eexists _, _. split; [reflexivity|].
  inversion HD as [|? ? D1 HD1]; subst. inversion HD1 as [|? ? D2 _]; subst. cbn [data_byte] in D1, D2. unfold isbyte in *.
  cbn [aPX abs wEI wHALT] in FF.
  destruct (in4_cases n Hn) as [->|[->|[->| ->]]]; cbn [stk s_rp2 s_hl] in FF.
  1,2: cf FF; constructor; cbn [pair set_sp af bc de hl ix iy af_alt bc_alt de_alt hl_alt pc sp im]; auto; try (intros; now apply af_eq); try (intros; exfalso; lia); try (destruct (prefix c); auto; fail).
  1: destruct (prefix c) as [[]|]; cf FF; constructor; cbn [pair set_sp af bc de hl ix iy af_alt bc_alt de_alt hl_alt pc sp im]; auto; try (intros; now apply af_eq);
     try (intros [|]; congruence || (exfalso; lia)); try (intros; exfalso; lia).
  cf FF. constructor; cbn [pair set_sp af bc de hl ix iy af_alt bc_alt de_alt hl_alt pc sp im]; auto; try (intros; exfalso; lia).
  assert (EA : af c' = 256 * x2 + x).
  { rewrite (af_split c' W), f_a0, f_f0. unfold hi, lo, word_of. lia. }
  destruct (prefix c); exact EA.
Qed.
(** CALL nn, RST, RET, RETN. *)
Lemma exec_call dbg c : wf c ->
  runs (TS:=TS) (WB:=WB) (RB:=RB) (execute_instruction FL dbg 0xCD c) (fun x bl cl =>
    wf (fst x) /\ snd x = None /\ exists l h,
    bl = VRd (pc c) l :: VRd ((pc c + 1) mod 65536) h :: pushes c ((pc c + 2) mod 65536) /\
    keeps c (fst x) /\ pc (fst x) = 256 * h + l /\ sp (fst x) = (sp c - 2) mod 65536).
Proof.
  intros Hw. assert (HC : byte 0xCD) by (unfold byte; lia). one Hw HC.
  unfold exec, exec_op in HA. change (decode 0xCD) with I_CALL in HA. cbn [step] in HA. unfold imm16, rd16, push, done in HA. accs. fin c'.
  split; [exact W|]. split; [reflexivity|]. eexists _, _. split; [reflexivity|]. cf FF.
  split; [|auto]. constructor; auto. now apply af_eq.
Qed.
Definition in8 (n : Z) : Prop := 0 <= n < 8.
Lemma dec_rst n : in8 n -> decode (0xC7 + 8 * n) = I_RST (8 * n).
Proof.
  intros H. assert (E : n = 0 \/ n = 1 \/ n = 2 \/ n = 3 \/ n = 4 \/ n = 5 \/ n = 6 \/ n = 7) by (unfold in8 in H; lia).
  destruct E as [->|[->|[->|[->|[->|[->|[->| ->]]]]]]]; reflexivity.
Qed.
Lemma exec_rst dbg c n : wf c -> in8 n ->
  runs (TS:=TS) (WB:=WB) (RB:=RB) (execute_instruction FL dbg (0xC7 + 8 * n) c) (fun x bl cl =>
    wf (fst x) /\ snd x = None /\ bl = pushes c (pc c) /\
    keeps c (fst x) /\ pc (fst x) = 8 * n /\ sp (fst x) = (sp c - 2) mod 65536).
Proof.
  intros Hw Hn. assert (HC : byte (0xC7 + 8 * n)) by (unfold byte, in8 in *; lia). one Hw HC.
  unfold exec, exec_op in HA. rewrite (dec_rst n Hn) in HA. cbn [step] in HA. unfold push, done in HA. accs. fin c'.
  split; [exact W|]. split; [reflexivity|]. split; [reflexivity|]. cf FF.
  split; [|auto]. constructor; auto. now apply af_eq.
Qed.
Lemma exec_ret dbg c : wf c ->
  runs (TS:=TS) (WB:=WB) (RB:=RB) (execute_instruction FL dbg 0xC9 c) (fun x bl cl =>
    wf (fst x) /\ snd x = None /\ exists l h,
    bl = [VRd (sp c) l; VRd ((sp c + 1) mod 65536) h] /\
    keeps c (fst x) /\ pc (fst x) = 256 * h + l /\ sp (fst x) = (sp c + 2) mod 65536).
Proof.
  intros Hw. assert (HC : byte 0xC9) by (unfold byte; lia). one Hw HC.
  unfold exec, exec_op in HA. change (decode 0xC9) with I_RET in HA. cbn [step] in HA. unfold pop, rd16, done in HA. accs. fin c'.
  split; [exact W|]. split; [reflexivity|]. eexists _, _. split; [reflexivity|]. cf FF.
  split; [|auto]. constructor; auto. now apply af_eq.
Qed.
(** RETN through [execute_next]: whichever op-codes are fetched, if they are ED 45. *)
Lemma next_retn dbg c : wf c -> iff1 c = false -> halt c = false -> prefix c = None ->
  runs (TS:=TS) (WB:=WB) (RB:=RB) (execute_next FL dbg c) (fun x bl cl =>
    wf (fst x) /\ exists r1 r2 v1 v2 bl', bl = VOp (pc c) r1 v1 :: bl' /\
    (v1 = 0xED -> exists bl2, bl' = VOp ((pc c + 1) mod 65536) r2 v2 :: bl2 /\
      (v2 = 0x45 -> snd x = None /\ exists l h, bl2 = [VRd (sp c) l; VRd ((sp c + 1) mod 65536) h] /\ keeps c (fst x) /\
       pc (fst x) = 256 * h + l /\ sp (fst x) = (sp c + 2) mod 65536 /\ iff1 (fst x) = iff2 c /\ iff2 (fst x) = iff2 c))).
Proof.
  intros Hw H1 HH HP. generalize (execute_next_follows (TS:=TS) (WB:=WB) (RB:=RB) FL ch absq OK dbg c Hw). apply runs_mono.
  intros [c' r'] bl cl HD (W & o & EO & HA). cbn [fst snd] in *. split; [exact W|].
  unfold next in HA. rewrite <- allowed_abs in HA. unfold is_irq_allowed in HA. rewrite H1 in HA. cbn [andb] in HA.
  cbv zeta in HA. change (aHALT (abs absq c)) with (halt c) in HA. rewrite HH in HA. unfold fetch in HA. acc1. cbv beta zeta in HA.
  destruct (Z.eq_dec x 0xED) as [->|N].
  2: { exists (IR (inc_R (abs absq c))), 0, x, 0, x0. split; [reflexivity|]. intros ->. contradiction. }
  unfold exec, exec_op in HA. change (decode 0xED) with I_ED in HA. cbn [step] in HA. unfold fetch in HA. acc1. cbv beta zeta in HA.
  eexists _, _, _, x, _. split; [reflexivity|]. intros _. eexists. split; [reflexivity|]. intros ->.
  change (ed_decode 0x45) with D_RETN in HA. cbn [ed_step] in HA. unfold pop, rd16, done in HA. accs. fin c'.
  split; [reflexivity|]. eexists _, _. split; [reflexivity|]. cf FF.
  split; [|auto]. constructor; auto. now apply af_eq.
Qed.

(** HALT through [execute_next]. *)
Lemma next_halt dbg c : wf c -> halt c = false ->
  runs (TS:=TS) (WB:=WB) (RB:=RB) (execute_next FL dbg c) (fun x bl cl =>
    In (VIrq true) bl \/ exists r v bl', bl = (if is_irq_allowed c then [VIrq false] else []) ++ VOp (pc c) r v :: bl' /\
    (v = 0x76 -> wf (fst x) /\ snd x = Some BHalt /\ bl' = [] /\ cl = [TM1 (pc c)] /\ keeps c (fst x) /\ pc (fst x) = pc c /\
    sp (fst x) = sp c /\ memptr (fst x) = memptr c /\ iff1 (fst x) = iff1 c /\ iff2 (fst x) = iff2 c /\
    halt (fst x) = true /\ last_ei (fst x) = false /\ prefix (fst x) = None /\ get_r (fst x) = r_plus 1 (get_r c))).
Proof.
  intros Hw HH. generalize (execute_next_follows (TS:=TS) (WB:=WB) (RB:=RB) FL ch absq OK dbg c Hw). apply runs_mono.
  intros [c' r'] bl cl HD (W & o & EO & HA). cbn [fst snd] in *.
  unfold next in HA. rewrite <- allowed_abs in HA. cbv zeta in HA. change (aHALT (abs absq c)) with (halt c) in HA. rewrite HH in HA.
  assert (G : forall bl, accepts (fetch (abs absq c) (exec ch)) bl cl (abs absq c', o) -> exists r v bl', bl = VOp (pc c) r v :: bl' /\
    (v = 0x76 -> wf c' /\ r' = Some BHalt /\ bl' = [] /\ cl = [TM1 (pc c)] /\ keeps c c' /\ pc c' = pc c /\
    sp c' = sp c /\ memptr c' = memptr c /\ iff1 c' = iff1 c /\ iff2 c' = iff2 c /\
    halt c' = true /\ last_ei c' = false /\ prefix c' = None /\ get_r c' = r_plus 1 (get_r c))).
  { clear bl HD HA. intros bl HA. unfold fetch in HA. acc1. cbv beta zeta in HA. eexists _, x, _. split; [reflexivity|]. intros ->.
    unfold exec, exec_op in HA. change (decode 0x76) with I_HALT in HA. cbn [step] in HA. accs. fin c'. cf FF.
    split; [exact W|]. repeat (split; [reflexivity|]). split; [constructor; auto; now apply af_eq|].
    split. { rewrite f_pc0. destruct Hw. unfold w16, word in *. lia. } repeat split; assumption. }
  destruct (is_irq_allowed c).
  - acc1. destruct x; [left; now left|]. right. apply G in HA. destruct HA as (r & v & bl' & -> & H). exists r, v, bl'. auto.
  - right. now apply G.
Qed.
Lemma add_r_0 c : wf c -> add_r 0 c = c.
Proof. intros Hw. destruct c. unfold add_r, set_rfield. cbn. f_equal. destruct Hw. cbn in *. unfold u8, byte in *. change (0 mod 256) with 0. rewrite Z.add_0_r. now apply Z.mod_small. Qed.
Lemma add_r_S n c : add_r n (inc_r c) = add_r (n + 1) c.
Proof. unfold add_r, inc_r, set_rfield. cbn. f_equal. unfold u8. lia. Qed.
Lemma wf_inc_r c : wf c -> wf (inc_r c).
Proof. intros [ ]. constructor; cbn; try assumption. unfold u8, byte. lia. Qed.
Lemma halted_run {BS CK} (Hs : host TS WB RB BS CK) n : forall c b k c' b' k' l, wf c -> halt c = true ->
  runl Hs (steps FL n c) b k = Some (c', b', k', l) -> ~ In (VIrq true) (buses l) ->
  c' = add_r (Z.of_nat n) c /\ clocks l = repeat (TM1 (pc c)) n /\
  buses l = (if is_irq_allowed c then repeat (VIrq false) n else []) /\ (is_irq_allowed c = false -> b' = b).
Proof.
  induction n as [|n IH]; intros c b k c' b' k' l Hw HH E HN.
  - injection E as <- <- <- <-. rewrite add_r_0 by exact Hw. repeat split. now destruct (is_irq_allowed c).
  - cbn [steps] in E. rewrite runl_bind in E. unfold execute_next, test_irq in E.
    destruct (is_irq_allowed c) eqn:EA.
    + cbn [runl] in E. cbv zeta in E. destruct (h_is_irq Hs b (h_as_ts Hs k)) as [b1 q]. destruct q.
      * exfalso. apply HN. destruct (runl Hs (irq_no_check FL false c) b1 k) as [[[[x1 ?] ?] ?]|]; [|discriminate E].
        cbn [cons_log] in E. destruct (runl Hs _ _ _) as [[[[? ?] ?] ?]|] in E; [|discriminate E]. injection E as <- <- <- <-.
        now left.
      * rewrite HH in E. cbn [runl] in E. destruct (h_add_m1 Hs k (pc c)) as [k1 t1]. cbn [cons_log fst] in E.
        destruct (runl Hs (steps FL n (inc_r c)) b1 k1) as [[[[c2 b2] k2] l2]|] eqn:E2; [|discriminate E]. injection E as <- <- <- <-.
        apply IH in E2; [|now apply wf_inc_r|exact HH|intros H; apply HN; right; exact H].
        destruct E2 as (-> & EC & EB & _). rewrite add_r_S. replace (Z.of_nat n + 1) with (Z.of_nat (S n)) by lia.
        split; [reflexivity|]. split; [exact (f_equal (cons (TM1 (pc c))) EC)|]. split; [|discriminate].
        change (is_irq_allowed (inc_r c)) with (is_irq_allowed c) in EB. rewrite EA in EB. exact (f_equal (cons (VIrq false)) EB).
    + rewrite HH in E. cbn [runl] in E. destruct (h_add_m1 Hs k (pc c)) as [k1 t1]. cbn [cons_log fst] in E.
      destruct (runl Hs (steps FL n (inc_r c)) b k1) as [[[[c2 b2] k2] l2]|] eqn:E2; [|discriminate E]. injection E as <- <- <- <-.
      apply IH in E2; [|now apply wf_inc_r|exact HH|exact HN].
      destruct E2 as (-> & EC & EB & EX). rewrite add_r_S. replace (Z.of_nat n + 1) with (Z.of_nat (S n)) by lia.
      change (is_irq_allowed (inc_r c)) with (is_irq_allowed c) in EB, EX. rewrite EA in EB.
      split; [reflexivity|]. split; [exact (f_equal (cons (TM1 (pc c))) EC)|]. split; [exact EB|auto].
Qed.

(** ** Stack *)
Lemma pushed_log (m m' : mem) c v : wf c -> word v -> ram_log m (pushes (WB:=WB) (RB:=RB) c v) m' ->
  holds_at m' ((sp c - 2) mod 65536) v /\
  (forall a, a <> (sp c - 1) mod 65536 -> a <> (sp c - 2) mod 65536 -> m' a = m a).
Proof.
  intros Hw Hv H. cbn [pushes ram_log] in H. destruct Hw. unfold word in *.
  assert (E1 : ((sp c - 2) mod 65536 + 1) mod 65536 = (sp c - 1) mod 65536) by lia.
  assert (E2 : (sp c - 1) mod 65536 <> (sp c - 2) mod 65536) by lia.
  split; [split|].
  - rewrite H. unfold mupd. rewrite Z.eqb_refl. apply Z.mod_small. lia.
  - rewrite E1, H. unfold mupd. apply Z.eqb_neq in E2. rewrite E2, Z.eqb_refl. apply Z.mod_small. lia.
  - intros a N1 N2. rewrite H. unfold mupd. apply Z.eqb_neq in N1, N2. now rewrite N1, N2.
Qed.
Lemma pair_word px n c : wf c -> word (pair px n c).
Proof. intros [ ]. unfold pair. destruct n as [|[[]|[]|]|], px as [[]|]; assumption. Qed.
Lemma wf_set_prefix px c : wf c -> wf (set_prefix px c).
Proof. intros [ ]. constructor; assumption. Qed.
Lemma sp_back s : word s -> ((s - 2) mod 65536 + 2) mod 65536 = s.
Proof. unfold word. lia. Qed.
Lemma word_back v : 256 * (v / 256) + v mod 256 = v. Proof. lia. Qed.
Lemma push_pop dbg c n m px {BS CK} (Hs : host TS WB RB BS CK) mo b k : ram_host Hs mo -> wf c -> in4 n -> in4 m ->
  exists c' b' k' l, runl Hs (pbind (execute_instruction FL dbg (0xC5 + 16 * n) c)
    (fun x => execute_instruction FL dbg (0xC1 + 16 * m) (set_prefix px (fst x)))) b k = Some ((c', None), b', k', l) /\
    only_pair px m (pair (prefix c) n c) c c' /\
    (forall a, a <> (sp c - 1) mod 65536 -> a <> (sp c - 2) mod 65536 -> mo b' a = mo b a).
Proof.
  intros HR Hw Hn Hm.
  destruct (runs_ram _ _ Hs mo b k (exec_push dbg c n Hw Hn) HR) as ([c1 r1] & b1 & k1 & l1 & E1 & _ & M1 & W1 & R1 & B1 & K1 & P1 & S1).
  cbn [fst snd] in *. rewrite B1 in M1. apply pushed_log in M1; [|exact Hw|now apply pair_word]. destruct M1 as ([M1 M1'] & M1'').
  destruct (runs_ram _ _ Hs mo b1 k1 (exec_pop dbg (set_prefix px c1) m (wf_set_prefix px _ W1) Hm) HR)
    as ([c2 r2] & b2 & k2 & l2 & E2 & _ & M2 & W2 & R2 & lo_ & hi_ & B2 & O2).
  cbn [fst snd prefix set_prefix sp] in *. rewrite B2 in M2. cbn [ram_log] in M2. destruct M2 as (L2 & H2 & M2).
  rewrite S1 in L2, H2, O2. rewrite M1 in L2. rewrite M1' in H2. subst lo_ hi_. rewrite word_back in O2.
  exists c2, b2, k2, (l1 ++ l2). rewrite runl_bind, E1. cbn [fst]. rewrite E2, R2. split; [reflexivity|]. split.
  - destruct O2, K1. cbn [set_sp set_prefix af bc de hl ix iy af_alt bc_alt de_alt hl_alt pc sp im get_i ir] in *.
    constructor; try assumption.
    all: try (intros N; etransitivity; [|eassumption]; auto; fail).
    + repeat split; etransitivity; try eassumption; tauto.
    + exact (eq_trans op_i kp_i).
    + congruence.
    + congruence.
    + rewrite op_sp. apply sp_back. apply Hw.
  - intros a N1 N2. rewrite M2. now apply M1''.
Qed.
Lemma keeps_trans c1 c2 c3 : keeps c1 c2 -> keeps c2 c3 -> keeps c1 c3.
Proof. intros [ ] [ ]. constructor; congruence. Qed.
(** RET right after [v] was pushed. *)
Lemma ret_back dbg c c1 v {BS CK} (Hs : host TS WB RB BS CK) mo b1 k1 : ram_host Hs mo -> wf c -> wf c1 ->
  sp c1 = (sp c - 2) mod 65536 -> holds_at (mo b1) ((sp c - 2) mod 65536) v ->
  exists c2 b2 k2 l2, runl Hs (execute_instruction FL dbg 0xC9 c1) b1 k1 = Some ((c2, None), b2, k2, l2) /\
    keeps c1 c2 /\ pc c2 = v /\ sp c2 = sp c /\ forall a, mo b2 a = mo b1 a.
Proof.
  intros HR Hw W1 S1 [M1 M1'].
  destruct (runs_ram _ _ Hs mo b1 k1 (exec_ret dbg c1 W1) HR)
    as ([c2 r2] & b2 & k2 & l2 & E2 & _ & M2 & W2 & R2 & lo_ & hi_ & B2 & K2 & P2 & S2).
  cbn [fst snd] in *. rewrite B2 in M2. cbn [ram_log] in M2. destruct M2 as (L2 & H2 & M2).
  rewrite S1 in L2, H2, S2. rewrite M1 in L2. rewrite M1' in H2. subst lo_ hi_. rewrite word_back in P2.
  exists c2, b2, k2, l2. rewrite E2, R2. rewrite sp_back in S2 by apply Hw. auto.
Qed.
(** [p] pushes [v], then RET. *)
Lemma then_ret {A} dbg c v (p : prog A) (f : A -> cpu Q) (R : A -> bevs -> list tev -> Prop) {BS CK}
    (Hs : host TS WB RB BS CK) mo b k : ram_host Hs mo -> wf c -> word v ->
  runs p R -> (forall x bl cl m m', Forall data_byte bl -> R x bl cl -> ram_log m bl m' ->
    wf (f x) /\ keeps c (f x) /\ sp (f x) = (sp c - 2) mod 65536 /\ ram_log m (pushes (WB:=WB) (RB:=RB) c v) m') ->
  exists c' b' k' l, runl Hs (pbind p (fun x => execute_instruction FL dbg 0xC9 (f x))) b k = Some ((c', None), b', k', l) /\
    keeps c c' /\ pc c' = v /\ sp c' = sp c /\
    (forall a, a <> (sp c - 1) mod 65536 -> a <> (sp c - 2) mod 65536 -> mo b' a = mo b a).
Proof.
  intros HR Hw Hv HP HC.
  destruct (runs_ram _ _ Hs mo b k HP HR) as (x & b1 & k1 & l1 & E1 & D1 & M1 & P1).
  destruct (HC _ _ _ _ _ D1 P1 M1) as (W1 & K1 & S1 & M1'). apply pushed_log in M1'; [|assumption..]. destruct M1' as [MH MF].
  destruct (ret_back dbg c (f x) v Hs mo b1 k1 HR Hw W1 S1 MH) as (c2 & b2 & k2 & l2 & E2 & K2 & P2 & S2 & M2).
  exists c2, b2, k2, (l1 ++ l2). rewrite runl_bind, E1, E2. split; [reflexivity|].
  split; [exact (keeps_trans _ _ _ K1 K2)|]. split; [exact P2|]. split; [exact S2|]. intros a N1 N2. rewrite M2. now apply MF.
Qed.
Lemma word_mod x : word (x mod 65536). Proof. unfold word. lia. Qed.
Lemma return_to_word c : wf c -> word (return_to c).
Proof. intros [ ]. unfold return_to. destruct (halt c); [apply word_mod|assumption]. Qed.
Lemma call_ret dbg c : wf c -> back FL dbg c ((pc c + 2) mod 65536) (execute_instruction (TS:=TS) (WB:=WB) (RB:=RB) FL dbg 0xCD c) fst.
Proof.
  intros Hw BS CK Hs mo b k HR. apply (then_ret _ _ _ _ _ _ Hs mo b k HR Hw (word_mod _) (exec_call dbg c Hw)).
  intros x bl cl m m' _ (W & _ & l & h & -> & K & _ & S) M. cbn [ram_log] in M. destruct M as (_ & _ & M). auto.
Qed.
Lemma rst_ret dbg c n : wf c -> in8 n -> back FL dbg c (pc c) (execute_instruction (TS:=TS) (WB:=WB) (RB:=RB) FL dbg (0xC7 + 8 * n) c) fst.
Proof.
  intros Hw Hn BS CK Hs mo b k HR. apply (then_ret _ _ _ _ _ _ Hs mo b k HR Hw (wf_pc _ Hw) (exec_rst dbg c n Hw Hn)).
  intros x bl cl m m' _ (W & _ & -> & K & _ & S) M. auto.
Qed.
Lemma irq_ret dbg c : wf c -> is_irq_allowed c = true -> im c <> Mode0 -> back FL dbg c (return_to c) (irq (TS:=TS) (WB:=WB) (RB:=RB) FL dbg c) fst.
Proof.
  intros Hw HI HM BS CK Hs mo b k HR. destruct (im c) eqn:EM; [congruence| |].
  - apply (then_ret _ _ _ _ _ _ Hs mo b k HR Hw (return_to_word c Hw) (irq_mode1 dbg c Hw HI EM)).
    intros x bl cl m m' _ (v & w & W & _ & -> & _ & _ & A1) M. destruct A1. auto.
  - apply (then_ret _ _ _ _ _ _ Hs mo b k HR Hw (return_to_word c Hw) (irq_mode2 dbg c Hw HI EM)).
    intros x bl cl m m' _ (v & w & l & h & W & _ & -> & _ & _ & A1) M. destruct A1. split; [exact W|]. split; [auto|]. split; [auto|].
    cbn [pushes app ram_log] in M |- *. destruct M as (_ & _ & M). exact M.
Qed.
Lemma nmi_ret dbg c : wf c -> is_nmi_allowed c = true -> back FL dbg c (return_to c) (nmi (TS:=TS) (WB:=WB) (RB:=RB) FL c) fst.
Proof.
  intros Hw HI BS CK Hs mo b k HR.
  apply (then_ret _ _ _ _ _ _ Hs mo b k HR Hw (return_to_word c Hw) (nmi_effect c Hw HI)).
  intros x bl cl m m' _ (W & _ & -> & _ & A1) M. destruct A1. auto.
Qed.
(** NMI, then RETN fetched from 0x66. *)
Lemma nmi_retn dbg c {BS CK} (Hs : host TS WB RB BS CK) mo b k : ram_host Hs mo -> wf c -> is_nmi_allowed c = true ->
  mo b 0x66 = 0xED -> mo b 0x67 = 0x45 ->
  ~ In ((sp c - 1) mod 65536) [0x66; 0x67] -> ~ In ((sp c - 2) mod 65536) [0x66; 0x67] ->
  exists c' b' k' l, runl Hs (pbind (nmi FL c) (fun x => execute_next FL dbg (fst x))) b k = Some ((c', None), b', k', l) /\
    keeps c c' /\ pc c' = return_to c /\ sp c' = sp c /\ iff1 c' = iff2 c /\ iff2 c' = iff2 c.
Proof.
  intros HR Hw HI B1 B2 N1 N2.
  destruct (runs_ram _ _ Hs mo b k (nmi_effect c Hw HI) HR) as ([c1 r1] & b1 & k1 & l1 & E1 & _ & M1 & W1 & _ & L1 & _ & A1).
  cbn [fst snd] in *. rewrite L1 in M1. apply pushed_log in M1; [|exact Hw|now apply return_to_word]. destruct M1 as ([ML MH] & MF).
  assert (PX : prefix c1 = None).
  { rewrite (an_px _ _ A1). unfold is_nmi_allowed, is_int_allowed in HI. now destruct (prefix c). }
  destruct (runs_ram _ _ Hs mo b1 k1 (next_retn dbg c1 W1 (an_iff1 _ _ A1) (an_halt _ _ A1) PX) HR)
    as ([c2 r2] & b2 & k2 & l2 & E2 & _ & M2 & W2 & q1 & q2 & v1 & v2 & bl' & L2 & H2).
  cbn [fst snd] in *. rewrite L2 in M2. cbn [ram_log] in M2. destruct M2 as (V1 & M2).
  rewrite (an_pc _ _ A1) in V1. rewrite MF, B1 in V1 by (intros X; rewrite <- X in *; cbn in *; tauto).
  destruct (H2 V1) as (bl2 & -> & H3). cbn [ram_log] in M2. destruct M2 as (V2 & M2).
  rewrite (an_pc _ _ A1) in V2. change ((102 + 1) mod 65536) with 0x67 in V2.
  rewrite MF, B2 in V2 by (intros X; rewrite <- X in *; cbn in *; tauto).
  destruct (H3 V2) as (R2 & l & h & -> & K2 & P2 & S2 & I1 & I2). cbn [ram_log] in M2. destruct M2 as (V3 & V4 & _).
  rewrite (an_sp _ _ A1) in V3, V4, S2. rewrite ML in V3. rewrite MH in V4. subst l h. rewrite word_back in P2.
  exists c2, b2, k2, (l1 ++ l2). rewrite runl_bind, E1. cbn [fst]. rewrite E2, R2. split; [reflexivity|].
  rewrite sp_back in S2 by apply Hw. rewrite (an_iff2 _ _ A1) in I1, I2.
  split; [exact (keeps_trans _ _ _ (an_keeps _ _ A1) K2)|]. auto.
Qed.
(** Mode 2 on RAM: the jump address is what memory holds after the pushes. *)
Lemma irq_mode2_ram dbg c {BS CK} (Hs : host TS WB RB BS CK) mo b k : ram_host Hs mo -> wf c -> is_irq_allowed c = true ->
  im c = Mode2 ->
  exists x b' k' l v w, runl Hs (irq FL dbg c) b k = Some (x, b', k', l) /\ byte v /\
    hd_error (buses l) = Some (VAck (return_to c) v w) /\
    pc (fst x) = mo b' (256 * get_i c + v) + 256 * mo b' ((256 * get_i c + v + 1) mod 65536) /\
    holds_at (mo b') ((sp c - 2) mod 65536) (return_to c) /\
    (forall a, a <> (sp c - 1) mod 65536 -> a <> (sp c - 2) mod 65536 -> mo b' a = mo b a).
Proof.
  intros HR Hw HI EM.
  destruct (runs_ram _ _ Hs mo b k (irq_mode2 dbg c Hw HI EM) HR) as (x & b1 & k1 & l1 & E1 & D1 & M1 & v & w & l & h & W1 & _ & L1 & _ & _ & A1).
  exists x, b1, k1, l1, v, w. rewrite L1 in *. inversion D1; subst.
  split; [exact E1|]. split; [assumption|]. split; [reflexivity|]. rewrite (ai_pc _ _ _ A1).
  cbn [app pushes ram_log] in M1. destruct M1 as (VL & VH & M1).
  assert (MP : ram_log (mo b) (pushes (WB:=WB) (RB:=RB) c (return_to c)) (mo b1)) by exact M1.
  apply pushed_log in MP; [|exact Hw|now apply return_to_word]. rewrite VL, VH, <- !M1. destruct MP. split; [lia|auto].
Qed.
Lemma irq_stores dbg c : wf c -> is_irq_allowed c = true -> im c <> Mode0 ->
  runs (TS:=TS) (WB:=WB) (RB:=RB) (irq FL dbg c) (fun x bl cl => stores bl = stores (pushes (WB:=WB) (RB:=RB) c (return_to c))).
Proof.
  intros Hw HI HM. destruct (im c) eqn:EM; [congruence| |].
  - refine (runs_mono _ _ _ _ (irq_mode1 dbg c Hw HI EM)). intros x bl cl _ (v & w & _ & _ & -> & _). reflexivity.
  - refine (runs_mono _ _ _ _ (irq_mode2 dbg c Hw HI EM)). intros x bl cl _ (v & w & l & h & _ & _ & -> & _). reflexivity.
Qed.
Lemma wf_do_halt c : wf c -> wf (do_halt c).
Proof. intros [ ]. constructor; assumption. Qed.
Lemma halt_api_irq dbg c : wf c -> is_irq_allowed c = true -> im c <> Mode0 ->
  runs (TS:=TS) (WB:=WB) (RB:=RB) (irq FL dbg (do_halt c)) (fun x bl cl => stores bl = pushed_at c ((pc c + 1) mod 65536)).
Proof. intros Hw HI HM. exact (irq_stores dbg (do_halt c) (wf_do_halt c Hw) HI HM). Qed.
Lemma halt_instr_irq dbg c : wf c -> iff1 c = true -> im c <> Mode0 ->
  runs (TS:=TS) (WB:=WB) (RB:=RB) (pbind (execute_instruction FL dbg 0x76 c) (fun x => irq FL dbg (fst x)))
    (fun x bl cl => stores bl = pushed_at c (pc c)).
Proof.
  intros Hw HI HM. apply (runs_bind _ _ _ _ (exec_halt dbg c Hw)).
  intros x bl cl _ (W & _ & -> & -> & K & P & S & _ & I1 & _ & HH & LE & PX & _).
  refine (runs_mono _ _ _ _ (irq_stores dbg (fst x) W _ _)).
  - intros y bl' cl' _ E. cbn [app]. rewrite E. unfold return_to. rewrite HH, P.
    unfold pushed_at, pushes, stores. cbn [flat_map app]. rewrite S. replace (((pc c - 1) mod 65536 + 1) mod 65536) with (pc c); [reflexivity|].
    destruct Hw. unfold word in *. lia.
  - unfold is_irq_allowed, is_int_allowed. now rewrite I1, HI, LE, PX.
  - now rewrite (kp_im _ _ K).
Qed.
End Ints.
