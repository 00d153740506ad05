(** Break requests and memory stores: the entry points. *)
From Coq Require Import ZArith Bool List Lia.
From Verif Require Import Base Flags Ops Parse Cpu Flavours Prog Trace Internal Instr Exec Range Lock
  SpecAlu SpecState SpecIsa SpecCycles SpecStep SpecEffects IsaLink IsaTac IsaCycles IsaFacts IsaControl IsaExec IsaRun Steps AluProofs Control Effects.
Import ListNotations.
Open Scope Z_scope.

Lemma reqs_break {WB RB} (bl : list (bev WB RB)) o h : requests bl = o_req o -> (o = OHalt <-> h = true) ->
  result_of o = break_of bl h /\ (length (requests bl) <= 1)%nat.
Proof.
  unfold break_of. intros -> HH.
  destruct o, h; cbn; split; auto; try (destruct HH as [H1 H2]; (discriminate (H1 eq_refl) || discriminate (H2 eq_refl))).
Qed.
Section Run.
Context {Q T TS WB RB : Type}.
Variables (FL : Flavour Q) (ch : chip T) (absq : Q -> T).
Hypothesis OK : chip_ok FL ch absq.
Implicit Types c : cpu Q.
Notation runs := (runs (TS:=TS) (WB:=WB) (RB:=RB)).
Lemma addr_abs c px rds l : addr_of c px rds l = s_addr (abs absq c) px rds l.
Proof. destruct l; try reflexivity. destruct px as [[]|]; reflexivity. Qed.
Lemma addrs_abs c px rds ls : map (addr_of c px rds) ls = map (s_addr (abs absq c) px rds) ls.
Proof. apply map_ext. apply addr_abs. Qed.
Lemma execute_instruction_eff dbg code c : byte code -> wf c ->
  runs (execute_instruction FL dbg code c) (fun x bl cl =>
    (snd x = break_of bl (code =? 0x76) /\ (length (requests bl) <= 1)%nat) /\
    stored_at bl = map (addr_of c (prefix c) (reads bl)) (instr_stores code (prefix c) (get_flags c) (opcodes bl) (reads bl))).
Proof.
  intros Hc Hw. refine (runs_mono _ _ _ _ (execute_instruction_follows FL ch absq OK dbg code c Hc Hw)).
  intros x bl cl HD (W & o & Ho & H). unfold exec in H.
  assert (E := exec_eff ch _ _ _ _ _ _ Hc HD H). destruct E as [E1 E2].
  apply exec_control in H; [|exact Hc|exact HD]. destruct H as (_ & _ & _ & _ & _ & _ & H7 & _).
  split.
  - rewrite Ho. apply reqs_break; [exact E1|]. now rewrite Z.eqb_eq.
  - rewrite addrs_abs. exact E2.
Qed.
Lemma int_eff (c : cpu Q) (bl : list (bev WB RB)) cl a' o : Forall data_byte bl -> prefix c = None -> last_ei c = false ->
  accepts (accept_int ch (abs absq c)) bl cl (a', o) ->
  (result_of o = break_of bl (halts c bl) /\ (length (requests bl) <= 1)%nat) /\ stored_at bl = step_stores c bl.
Proof.
  intros HD HP HE H. assert (HC := int_control ch _ _ _ _ _ HD H).
  destruct HC as (p & v & w & bl' & -> & Hv & _ & _ & _ & _ & _ & _ & HH & _).
  inversion HD as [|? ? _ HD']. subst. clear HD.
  unfold accept_int in H. cbv zeta in H. apply acc_ack in H. destruct H as (v' & w' & bl2 & cl' & E & -> & H).
  injection E as EA -> -> ->. change (aIM (abs absq c)) with (im c) in *.
  set (a1 := resume (inc_R (wIFF1 false (wIFF2 false (abs absq c))))) in *.
  assert (A1 : aIM a1 = im c /\ aPX a1 = None /\ aF a1 = get_flags c /\ aSP a1 = sp c /\ aBC a1 = bc c /\ aDE a1 = de c /\ aHL a1 = hl c).
  { unfold a1, resume. rewrite <- HP. destruct (aHALT _); repeat split. }
  destruct A1 as (A1 & A2 & A3 & A4 & A5 & A6 & A7). clearbody a1. rewrite A1 in H.
  assert (R : requests bl2 = o_req o -> result_of o = break_of (VAck p v' w' :: bl2) (halts c (VAck p v' w' :: bl2)) /\
     (length (requests (VAck p v' w' :: bl2)) <= 1)%nat).
  { intros ER. apply reqs_break; [exact ER|]. cbn [halts]. destruct (im c).
    - rewrite Z.eqb_eq. rewrite HH. tauto.
    - rewrite HH. split; [intros [? _]|]; discriminate.
    - rewrite HH. split; [intros [? _]|]; discriminate. }
  assert (S : stored_at (VAck p v' w' :: bl2) = stored_at bl2) by reflexivity. rewrite S. clear S.
  unfold step_stores. destruct (im c).
  - unfold exec in H. apply exec_eff in H; [|assumption..]. destruct H as [H1 H2]. split; [auto|].
    rewrite H2. cbn [aPX aF wEI wHALT]. rewrite A2, A3, HP. apply map_ext. intros l.
    destruct l; cbn [s_addr addr_of aBC aDE aHL aSP wEI wHALT]; congruence.
  - clear HH. unfold push, done in H. accs. match goal with X : (_, _) = (a', o) |- _ => injection X as <- <- end.
    split; [apply R; reflexivity|]. cbn. now rewrite A4.
  - clear HH. unfold push, rd16, done in H. accs. match goal with X : (_, _) = (a', o) |- _ => injection X as <- <- end.
    split; [apply R; reflexivity|]. cbn. now rewrite A4.
Qed.
Lemma int_en c : int_enabled (abs absq c) = true -> prefix c = None /\ last_ei c = false.
Proof.
  unfold int_enabled, nmi_enabled. rewrite !andb_true_iff. intros (_ & E1 & E2). cbn [aEI aPX abs] in *.
  split; [destruct (prefix c); congruence|now destruct (last_ei c)].
Qed.
Lemma execute_next_eff dbg c : wf c ->
  runs (execute_next FL dbg c) (fun x bl cl =>
    (snd x = break_of bl (halts c bl) /\ (length (requests bl) <= 1)%nat) /\ stored_at bl = step_stores c bl).
Proof.
  intros Hw. refine (runs_mono _ _ _ _ (execute_next_follows FL ch absq OK dbg c Hw)).
  intros x bl cl HD (W & o & Ho & H). rewrite Ho. clear Ho. apply next_cases in H; [|exact HD].
  destruct H as [bl' HI -> HD' H|HH -> -> _ ->|ir v bl' cl' HH -> -> HV HD' H].
  - destruct (int_en _ HI) as [HP HE]. assert (HC := int_control ch _ _ _ _ _ HD' H).
    destruct HC as (p & v & w & bl2 & -> & _).
    apply (int_eff c) in H; [|assumption..]. exact H.
  - unfold irq_sample. destruct (int_enabled _); repeat split; cbn; auto.
  - unfold exec in H. assert (E := exec_eff ch _ _ _ _ _ _ HV HD' H). destruct E as [E1 E2].
    apply exec_control in H; [|assumption..]. destruct H as (_ & _ & _ & _ & _ & _ & H7 & _).
    rewrite <- Z.eqb_eq in H7.
    destruct (reqs_break _ _ _ E1 H7) as [E3 E4].
    unfold irq_sample. destruct (int_enabled _); cbn [app]; (split; [split; [exact E3|exact E4]|]);
      unfold step_stores; rewrite addrs_abs; exact E2.
Qed.
Lemma irq_eff dbg c : wf c ->
  runs (irq FL dbg c) (fun x bl cl =>
    (snd x = if is_irq_allowed c then Some (break_of bl (halts c bl)) else None) /\
    (length (requests bl) <= 1)%nat /\ stored_at bl = step_stores c bl).
Proof.
  intros Hw. rewrite (allowed_abs absq). refine (runs_mono _ _ _ _ (irq_follows FL ch absq OK dbg c Hw)).
  intros x bl cl HD H. cbv beta in H. destruct (int_enabled (abs absq c)) eqn:EI.
  - destruct H as (q & Eq & W & o & Ho & H). destruct (int_en _ EI) as [HP HE]. apply (int_eff c) in H; [|assumption..].
    destruct H as [[H1 H2] H3]. split; [|auto]. rewrite Eq, Ho. now rewrite H1.
  - destruct H as (-> & -> & ->). repeat split; cbn; auto.
Qed.
Lemma not_taken_spec code (a : arch T) (bl : list (bev WB RB)) cl a' o : byte code -> word (aBC a) ->
  not_taken code (aF a) (aBC a / 256) = true ->
  accepts (exec ch code a) bl cl (a', o) ->
  bl = [] /\ cl = (if code =? 0x10 then [TX (IR a) 1] else []) ++ [TMreq (aPC a)] /\ aPC a' = (aPC a + 1) mod 65536 /\ o = ONext.
Proof.
  intros Hc HB HN H. unfold exec, exec_op in H.
  assert (NJ : forall cc (a0 : arch T), holds cc (aF a0) = false -> accepts (step ch (aPX a0) (I_JRcc cc) (aQ a0) (wPX None (wQ (c_begin ch (aQ a0)) a0))) bl cl (a', o) ->
     bl = [] /\ cl = [TMreq (aPC a0)] /\ aPC a' = (aPC a0 + 1) mod 65536 /\ o = ONext).
  { clear. intros cc a0 HH H. cbn [step] in H. cbn [aF wPX wQ] in H. rewrite HH in H. unfold done in H. accs.
    match goal with X : (_, _) = (a', o) |- _ => injection X as <- <- end. auto. }
  unfold not_taken in HN.
  destruct (code =? 0x10) eqn:E1.
  { apply Z.eqb_eq in E1. subst code. cbn [decode] in H. change (decode 0x10) with I_DJNZ in H. cbn [step] in H.
    cbn [aBC wPX wQ wEI wHALT] in H. assert (E : (w8 (hi (aBC a) - 1) =? 0) = true).
    { unfold hi, w8. apply Z.eqb_eq in HN. rewrite HN. reflexivity. }
    rewrite E in H. unfold done in H. accs.
    match goal with X : (_, _) = (a', o) |- _ => injection X as <- <- end. auto. }
  apply Z.eqb_neq in E1. cbn [app].
  destruct (Z.eq_dec code 0x20) as [->|N1]; [apply (NJ NZ) in H; [exact H|cbn [holds aF wEI wHALT]; now rewrite HN]|].
  destruct (Z.eq_dec code 0x28) as [->|N2]; [apply (NJ CZ) in H; [exact H|cbn [holds aF wEI wHALT]; now apply negb_true_iff]|].
  destruct (Z.eq_dec code 0x30) as [->|N3]; [apply (NJ NC) in H; [exact H|cbn [holds aF wEI wHALT]; now rewrite HN]|].
  destruct (Z.eq_dec code 0x38) as [->|N4]; [apply (NJ CC) in H; [exact H|cbn [holds aF wEI wHALT]; now apply negb_true_iff]|].
  exfalso. revert E1 N1 N2 N3 N4 HN. clear. destruct code; try discriminate.
  do 6 (destruct p; try discriminate; try congruence).
Qed.
Lemma buses_access (l : list (ev TS WB RB)) : buses l = [] -> forallb (fun e => no_access e) l = true.
Proof.
  induction l as [|e l IH]; [reflexivity|]. cbn. unfold buses in *. cbn. intros H. apply app_eq_nil in H. destruct H as [H1 H2].
  rewrite (IH H2), andb_true_r. destruct e; try reflexivity; discriminate.
Qed.
Lemma not_taken_run dbg code c : byte code -> wf c -> not_taken code (get_flags c) (bc c / 256) = true ->
  forall BS CK (Hs : host TS WB RB BS CK) b k,
  exists c' b' k' l, runl Hs (execute_instruction FL dbg code c) b k = Some ((c', None), b', k', l) /\
    forallb (fun e => no_access e) l = true /\ pc c' = (pc c + 1) mod 65536 /\
    clocks l = (if code =? 0x10 then [TX (get_ir c) 1] else []) ++ [TMreq (pc c)].
Proof.
  intros Hc Hw HN BS CK Hs b k.
  destruct (execute_instruction_follows FL ch absq OK dbg code c Hc Hw BS CK Hs b k) as ([c' r] & b' & k' & l & E & D & W & o & Ho & HA).
  cbn [fst snd] in *.
  apply not_taken_spec in HA; [|assumption|exact (wf_bc _ Hw)|exact HN].
  destruct HA as (H1 & H2 & H3 & ->). exists c', b', k', l. cbn in Ho. subst r. split; [exact E|]. split; [now apply buses_access|].
  split; [exact H3|]. rewrite H2, (IR_abs absq c Hw). reflexivity.
Qed.
Lemma nmi_eff c : wf c ->
  runs (nmi FL c) (fun x bl cl => requests bl = [] /\
    stored_at bl = if is_nmi_allowed c then map (addr_of c None []) [L_push_hi; L_push_lo] else []).
Proof.
  intros Hw. unfold is_nmi_allowed. rewrite (nmi_allowed_abs absq). refine (runs_mono _ _ _ _ (nmi_follows FL ch absq OK c Hw)).
  intros x bl cl HD H. cbv beta in H. destruct (nmi_enabled (abs absq c)).
  - destruct H as (_ & W & o & _ & H).
    unfold accept_nmi, push, done in H. cbv zeta in H.
    set (a1 := resume (inc_R (wIFF1 false (wEI false (abs absq c))))) in *.
    assert (A : aSP a1 = sp c) by (unfold a1, resume; destruct (aHALT _); reflexivity). clearbody a1.
    accs. cbn. rewrite A. auto.
  - destruct H as (-> & -> & ->). auto.
Qed.
End Run.

(** ** Breaking does not change anything else (C41) *)
Lemma lsim_mute {TS WB RB A B} (R : A -> B -> Prop) (p : prog TS WB RB A) (q : prog TS WB RB B) :
  lsim (fun _ x => x = None) (fun _ x => x = None) (fun _ => True) (fun _ => True) R p q ->
  forall BS CK (Hs : host TS WB RB BS CK) b k a b' k' l,
  runl Hs p b k = Some (a, b', k', l) ->
  exists a' l', runl (mute Hs) q b k = Some (a', b', k', l') /\ R a a' /\ clocks l' = clocks l.
Proof.
  intros H BS CK Hs. induction H; intros b0 c0 a0 b1 c1 l0 E0; cbn [runl] in *; cbv zeta in *.
  1: { injection E0 as <- <- <- <-. exists b, []. auto. }
  1: discriminate.
  all: cbn [mute h_is_past_limit h_add_irq h_add_no_mreq h_add_m1 h_add_mreq h_add_io h_add_wait h_as_ts h_read_io h_write_io
    h_is_irq h_irq_data h_reti h_read_mem h_read_mem16 h_read_opcode h_write_mem h_read_debug] in *.
  all: repeat match type of E0 with context [let (_, _) := ?x in _] => destruct x end; cbn [fst snd] in *.
  all: match type of E0 with cons_log _ ?r = _ => destruct r as [[[[? ?] ?] ?]|] eqn:E1; [|discriminate] end.
  all: cbn [cons_log] in E0; injection E0 as <- <- <- <-.
  all: first [ apply (IHlsim _ _ _ _ _ _) in E1 | apply (H0 _ None _ eq_refl) in E1 | apply (H0 _ None eq_refl) in E1
             | apply (H0 _ I) in E1 | apply (H0 _ _ I) in E1 | apply (H0 _ _) in E1 | apply (H0 _) in E1 ].
  all: destruct E1 as (a' & l' & E1 & HR & EC); rewrite E1; exists a'; eexists; split; [reflexivity|split; [exact HR|]].
  all: cbn [clocks flat_map]; try (unfold clocks in *; cbn [flat_map]; rewrite EC; reflexivity).
Qed.
Section Mute.
Context {Q TS WB RB : Type}.
Variables (FL : Flavour Q) (dbg : bool).
Notation AW := (fun (_ x : option WB) => x = None).
Notation AR := (fun (_ x : option RB) => x = None).
Lemma resrel_mute (r1 r2 : result WB RB) : resrel AW AR r1 r2 -> r2 = mute_result r1.
Proof. destruct r1 as [[]|], r2 as [[]|]; cbn; intros; try contradiction; congruence. Qed.
Definition muted (x y : cpu Q * result WB RB) : Prop := y = (fst x, mute_result (snd x)).
Lemma muted_res x y : crel eq (fst x) (fst y) /\ resrel AW AR (snd x) (snd y) -> muted x y.
Proof. intros [H1 H2]. apply crel_eq in H1. apply resrel_mute in H2. unfold muted. rewrite <- H1, <- H2. now destruct y. Qed.
Lemma execute_instruction_mute code (c : cpu Q) BS CK (Hs : host TS WB RB BS CK) b k c' r b' k' l :
  runl Hs (execute_instruction FL dbg code c) b k = Some ((c', r), b', k', l) ->
  exists l', runl (mute Hs) (execute_instruction FL dbg code c) b k = Some ((c', mute_result r), b', k', l') /\ clocks l' = clocks l.
Proof.
  intros E.
  assert (L : lsim (TS:=TS) AW AR (fun _ => True) (fun _ => True) muted (execute_instruction FL dbg code c) (execute_instruction FL dbg code c)).
  { refine (lsim_mono _ _ _ _ _ _ _ _ muted_res _).
    apply (execute_instruction_ls FL FL dbg AW AR (fun _ => True) (fun _ => True) eq true true true true);
      try congruence; auto using plain_true. exists (flavour c). split; [reflexivity|now destruct c]. }
  destruct (lsim_mute _ _ _ L _ _ Hs _ _ _ _ _ _ E) as (y & l' & E1 & -> & E2). eauto.
Qed.
Lemma execute_next_mute (c : cpu Q) BS CK (Hs : host TS WB RB BS CK) b k c' r b' k' l :
  runl Hs (execute_next FL dbg c) b k = Some ((c', r), b', k', l) ->
  exists l', runl (mute Hs) (execute_next FL dbg c) b k = Some ((c', mute_result r), b', k', l') /\ clocks l' = clocks l.
Proof.
  intros E.
  assert (L : lsim (TS:=TS) AW AR (fun _ => True) (fun _ => True) muted (execute_next FL dbg c) (execute_next FL dbg c)).
  { refine (lsim_mono _ _ _ _ _ _ _ _ muted_res _).
    apply (execute_next_ls FL FL dbg AW AR (fun _ => True) (fun _ => True) eq true true true true);
      try congruence; auto using plain_true. exists (flavour c). split; [reflexivity|now destruct c]. }
  destruct (lsim_mute _ _ _ L _ _ Hs _ _ _ _ _ _ E) as (y & l' & E1 & -> & E2). eauto.
Qed.
Lemma irq_mute (c : cpu Q) BS CK (Hs : host TS WB RB BS CK) b k c' r b' k' l :
  runl Hs (irq FL dbg c) b k = Some ((c', r), b', k', l) ->
  exists l', runl (mute Hs) (irq FL dbg c) b k = Some ((c', option_map mute_result r), b', k', l') /\ clocks l' = clocks l.
Proof.
  intros E.
  assert (L : lsim (TS:=TS) AW AR (fun _ => True) (fun _ => True)
    (fun x y : cpu Q * option (result WB RB) => y = (fst x, option_map mute_result (snd x))) (irq FL dbg c) (irq FL dbg c)).
  { refine (lsim_mono _ _ _ _ _ _ _ _ _ (irq_ls FL FL dbg AW AR (fun _ => True) (fun _ => True) eq true true true true _ _ _ _ _ _ c c _ _));
      try congruence; auto using plain_true.
    - intros [x rx] [y ry] [H1 H2]. cbn [fst snd] in *. apply crel_eq in H1. subst y. f_equal.
      destruct rx as [rx|], ry as [ry|]; cbn; try contradiction; auto. f_equal. now apply resrel_mute.
    - exists (flavour c). split; [reflexivity|now destruct c]. }
  destruct (lsim_mute _ _ _ L _ _ Hs _ _ _ _ _ _ E) as (y & l' & E1 & -> & E2). eauto.
Qed.
End Mute.
Lemma instr_stores_two c px f ops rds : (length (instr_stores c px f ops rds) <= 2)%nat.
Proof.
  unfold instr_stores, main_stores, cb_stores, ed_stores.
  destruct px; repeat match goal with |- context [if ?b then _ else _] => destruct b; cbn [length]; try lia end.
Qed.
Lemma step_stores_two {WB RB Q} (c : cpu Q) (bl : list (bev WB RB)) : (length (step_stores c bl) <= 2)%nat.
Proof.
  unfold step_stores. destruct bl as [|[] bl]; cbn [length]; try lia.
  all: try match goal with |- (length (match ?l with _ => _ end) <= _)%nat => destruct l as [|[] ?]; cbn [length]; try lia end.
  all: try (rewrite map_length; apply instr_stores_two).
  all: destruct (im c); rewrite map_length; first [apply instr_stores_two | cbn; lia].
Qed.
