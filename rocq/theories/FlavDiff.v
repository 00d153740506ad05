(** Flavours differ only where documented (C31). *)
From Coq Require Import ZArith Bool List String Lia.
From Verif Require Import Base Flags Ops Parse Cpu Flavours Prog Trace Internal Instr Exec Decode Range Clock Lock
  SpecIsa SpecStep SpecFlavour IsaLink IsaRun Steps Accessors AluProofs.
Import ListNotations.
Open Scope Z_scope.
Ltac Zify.zify_post_hook ::= Z.div_mod_to_equations.

Lemma same_crel {Q1 Q2} (c1 : cpu Q1) (c2 : cpu Q2) : same_cpu c1 c2 <-> crel (fun _ _ => True) c1 c2.
Proof.
  split.
  - intros [H1 H2]. exists (flavour c2). split; [exact I|]. destruct c1, c2. unfold withx. cbn in *.
    injection H1 as -> -> -> -> -> -> -> -> -> ->. injection H2 as -> -> -> -> -> -> -> -> -> -> ->. reflexivity.
  - intros (q & _ & ->). split; reflexivity.
Qed.
Definition oddb (code : Z) : bool := existsb (Z.eqb code) (scf_ccf ++ memptr_stores).
Lemma oddb_odd code : oddb code = true -> odd code.
Proof. unfold oddb, odd. rewrite existsb_exists. intros (x & H & E). apply Z.eqb_eq in E. now subst. Qed.
Lemma odd_plain (AO : Z -> Prop) code : byte code -> ~ odd code ->
  (code = 0xED -> forall v, AO v -> plain_ed false false v) -> plain AO false false false false code.
Proof.
  intros Hc N HE.
  assert (E : (oddb code || match decode_none code with M_LD_rp_A _ | M_LD_nn_A | M_OUT_n_A | M_CCF | M_SCF => false
    | M_ED => code =? 0xED | _ => true end) = true).
  { revert code Hc N HE. intros code Hc _ _. revert code Hc.
    match goal with |- forall x, byte x -> (@?P x) = true => apply (all1_spec P) end. vm_compute. reflexivity. }
  destruct (oddb code) eqn:O; [now apply oddb_odd in O|]. cbn [orb] in E. unfold plain.
  destruct (decode_none code); try discriminate; auto. apply Z.eqb_eq in E. auto.
Qed.
Lemma odd_plain_ed v : byte v -> ~ odd_ed v -> plain_ed false false v.
Proof.
  intros Hc N.
  assert (E : (existsb (Z.eqb v) [0x71; 0x57; 0x5F] || match decode_ed v with E_OUT => match reg8_b5_3 v with None => false | _ => true end
    | E_LD_A_ir _ => false | _ => true end) = true).
  { clear N. revert v Hc.
    match goal with |- forall x, byte x -> (@?P x) = true => apply (all1_spec P) end. vm_compute. reflexivity. }
  destruct (existsb _ _) eqn:O.
  { exfalso. apply N. apply existsb_exists in O as (x & H & E'). apply Z.eqb_eq in E'. now subst. }
  cbn [orb] in E. unfold plain_ed. destruct (decode_ed v); try discriminate; auto.
  destruct (reg8_b5_3 v); [discriminate|discriminate E].
Qed.

Section Two.
Context {Q1 Q2 TS WB RB : Type}.
Variables (FL1 : Flavour Q1) (FL2 : Flavour Q2).
(** The host calls agree, so do the results. *)
Definition agree {A1 A2} (R : A1 -> A2 -> Prop) (p1 : prog TS WB RB A1) (p2 : prog TS WB RB A2)
    (C : list (ev TS WB RB) -> Prop) : Prop :=
  forall BS CK (Hs : host TS WB RB BS CK) b k x b' k' l, runl Hs p1 b k = Some (x, b', k', l) -> C l ->
  exists y, runl Hs p2 b k = Some (y, b', k', l) /\ R x y.
Definition same_res (x : cpu Q1 * result WB RB) (y : cpu Q2 * result WB RB) : Prop :=
  same_cpu (fst x) (fst y) /\ snd y = snd x.

Lemma ops_in (AO : Z -> Prop) (l : list (ev TS WB RB)) :
  (forall v, In v (opcodes (buses l)) -> AO v) -> Forall (op_in AO (fun _ => True)) l.
Proof.
  intros H. apply Forall_forall. intros e He. destruct e; try exact I. cbn [op_in]. apply H.
  unfold opcodes, buses. apply in_flat_map. exists (VOp a i v). split; [|now left]. apply in_flat_map. exists (EOp a i t v).
  split; [exact He|now left].
Qed.
Lemma ops_byte BS CK (Hs : host TS WB RB BS CK) A (p : prog TS WB RB A) b k x b' k' l :
  runl Hs p b k = Some (x, b', k', l) -> Forall (fun v => byte v) (opcodes (buses l)).
Proof.
  intros E. apply runl_bytes in E. apply Forall_forall. intros v Hv. unfold opcodes in Hv. apply in_flat_map in Hv as (e & He & Hv).
  rewrite Forall_forall in E. specialize (E e He). destruct e; cbn in Hv; try contradiction; destruct Hv as [<-|[]]; exact E.
Qed.
Lemma execute_instruction_flav dbg code (c1 : cpu Q1) (c2 : cpu Q2) : byte code -> same_cpu c1 c2 ->
  agree same_res (execute_instruction FL1 dbg code c1) (execute_instruction FL2 dbg code c2)
    (fun l => common code (opcodes (buses l))).
Proof.
  intros Hc HS BS CK Hs b k x b' k' l E [N1 N2].
  assert (HB := ops_byte _ _ _ _ _ _ _ _ _ _ _ E).
  pose (AO := fun v => code = 0xED -> byte v /\ ~ odd_ed v).
  assert (P : plain AO false false false false code).
  { apply (odd_plain AO code Hc N1). intros EE v HA. destruct (HA EE). now apply odd_plain_ed. }
  pose proof (execute_instruction_ls (TS:=TS) (WB:=WB) (RB:=RB) FL1 FL2 dbg eq eq AO (fun _ => True) (fun _ _ => True)
    false false false false ltac:(auto) ltac:(auto) ltac:(discriminate) ltac:(discriminate) ltac:(discriminate) ltac:(discriminate)
    code c1 c2 P (proj1 (same_crel _ _) HS)) as L.
  destruct (lsim_runl _ _ _ _ _ L _ _ Hs b k _ _ _ _ E) as (y & E' & HC & HR).
  { apply ops_in. intros v Hv EE. split; [|now apply N2]. rewrite Forall_forall in HB. now apply HB. }
  exists y. split; [exact E'|]. split; [now apply same_crel|now apply resrel_eq].
Qed.
Lemma lsim_agree {A1 A2} (R R' : A1 -> A2 -> Prop) p1 p2 C : lsim eq eq (fun _ => True) (fun _ => True) R p1 p2 ->
  (forall x y, R x y -> R' x y) -> agree R' p1 p2 C.
Proof.
  intros L HR BS CK Hs b k x b' k' l E _. destruct (lsim_runl _ _ _ _ _ L _ _ Hs b k _ _ _ _ E) as (y & E' & H).
  - apply Forall_forall. intros e _. now destruct e.
  - exists y. auto.
Qed.
Lemma agree_irq {A1 A2} (R : A1 -> A2 -> Prop) a k1 k2 (C : list (ev TS WB RB) -> Prop) :
  (forall t, agree R (k1 t) (k2 t) (fun l => C (KIrq a t :: l))) -> agree R (AddIrq a k1) (AddIrq a k2) C.
Proof.
  intros H BS CK Hs b k x b' k' l E HC. cbn [runl] in *. destruct (h_add_irq Hs k a) as [k3 t].
  destruct (runl Hs (k1 t) b k3) as [[[[x1 b1] k4] l1]|] eqn:E1; [|discriminate]. cbn [cons_log] in E. injection E as <- <- <- <-.
  destruct (H t _ _ Hs _ _ _ _ _ _ E1 HC) as (y & E2 & HR). rewrite E2. exists y. auto.
Qed.
Lemma agree_data {A1 A2} (R : A1 -> A2 -> Prop) a t k1 k2 (C : list (ev TS WB RB) -> Prop) :
  (forall v w, byte v -> agree R (k1 v w) (k2 v w) (fun l => C (EIrqData a t v w :: l))) -> agree R (IrqData a t k1) (IrqData a t k2) C.
Proof.
  intros H BS CK Hs b k x b' k' l E HC. cbn [runl] in *. destruct (h_irq_data Hs b a t) as [b3 [v w]]. cbn [fst snd] in *.
  destruct (runl Hs (k1 _ _) b3 k) as [[[[x1 b1] k4] l1]|] eqn:E1; [|discriminate]. cbn [cons_log] in E. injection E as <- <- <- <-.
  destruct (H _ _ (u8_byte' v) _ _ Hs _ _ _ _ _ _ E1 HC) as (y & E2 & HR). rewrite E2. exists y. auto.
Qed.
Lemma agree_wait {A1 A2} (R : A1 -> A2 -> Prop) a n k1 k2 (C : list (ev TS WB RB) -> Prop) :
  agree R k1 k2 (fun l => C (KWait a n :: l)) -> agree R (AddWait a n k1) (AddWait a n k2) C.
Proof.
  intros H BS CK Hs b k x b' k' l E HC. cbn [runl] in *.
  destruct (runl Hs k1 b _) as [[[[x1 b1] k4] l1]|] eqn:E1; [|discriminate]. cbn [cons_log] in E. injection E as <- <- <- <-.
  destruct (H _ _ Hs _ _ _ _ _ _ E1 HC) as (y & E2 & HR). rewrite E2. exists y. auto.
Qed.
Lemma agree_m1 {A1 A2} (R : A1 -> A2 -> Prop) a k1 k2 (C : list (ev TS WB RB) -> Prop) :
  (forall t, agree R (k1 t) (k2 t) (fun l => C (KM1 a t :: l))) -> agree R (AddM1 a k1) (AddM1 a k2) C.
Proof.
  intros H BS CK Hs b k x b' k' l E HC. cbn [runl] in *. destruct (h_add_m1 Hs k a) as [k3 t].
  destruct (runl Hs (k1 t) b k3) as [[[[x1 b1] k4] l1]|] eqn:E1; [|discriminate]. cbn [cons_log] in E. injection E as <- <- <- <-.
  destruct (H t _ _ Hs _ _ _ _ _ _ E1 HC) as (y & E2 & HR). rewrite E2. exists y. auto.
Qed.
Lemma agree_op {A1 A2} (R : A1 -> A2 -> Prop) a i t k1 k2 (C : list (ev TS WB RB) -> Prop) :
  (forall v, byte v -> agree R (k1 v) (k2 v) (fun l => C (EOp a i t v :: l))) -> agree R (ReadOpcode a i t k1) (ReadOpcode a i t k2) C.
Proof.
  intros H BS CK Hs b k x b' k' l E HC. cbn [runl] in *. destruct (h_read_opcode Hs b a i t) as [b3 v].
  destruct (runl Hs (k1 _) b3 k) as [[[[x1 b1] k4] l1]|] eqn:E1; [|discriminate]. cbn [cons_log] in E. injection E as <- <- <- <-.
  destruct (H _ (u8_byte' v) _ _ Hs _ _ _ _ _ _ E1 HC) as (y & E2 & HR). rewrite E2. exists y. auto.
Qed.
Lemma agree_ret {A1 A2} (R : A1 -> A2 -> Prop) x y C : R x y -> agree R (Ret x) (Ret y) C.
Proof. intros H BS CK Hs b k x' b' k' l E _. injection E as <- <- <- <-. exists y. auto. Qed.
Lemma agree_ts_irq {A1 A2} (R : A1 -> A2 -> Prop) k1 k2 (C : list (ev TS WB RB) -> Prop) :
  (forall t x, agree R (k1 x) (k2 x) (fun l => C (KTs t :: EIsIrq t x :: l))) ->
  agree R (AsTs (fun t => IsIrq t k1)) (AsTs (fun t => IsIrq t k2)) C.
Proof.
  intros H BS CK Hs b k x b' k' l E HC. cbn [runl] in *. destruct (h_is_irq Hs b (h_as_ts Hs k)) as [b3 v].
  destruct (runl Hs (k1 _) b3 k) as [[[[x1 b1] k4] l1]|] eqn:E1; [|discriminate]. cbn [cons_log] in E. injection E as <- <- <- <-.
  destruct (H _ _ _ _ Hs _ _ _ _ _ _ E1 HC) as (y & E2 & HR). rewrite E2. exists y. auto.
Qed.
Lemma agree_mono {A1 A2} (R R' : A1 -> A2 -> Prop) p1 p2 (C C' : list (ev TS WB RB) -> Prop) :
  (forall x y, R x y -> R' x y) -> (forall l, C' l -> C l) -> agree R p1 p2 C -> agree R' p1 p2 C'.
Proof.
  intros HR HC H BS CK Hs b k x b' k' l E HX. destruct (H _ _ Hs _ _ _ _ _ _ E (HC _ HX)) as (y & E2 & H2). eauto.
Qed.

Definition ack_pc {Q} (c : cpu Q) : Z := if halt c then u16 (pc c + 1) else pc c.
Definition ack_cpu {Q} (c : cpu Q) : cpu Q :=
  let c := inc_r (disable_interrupts c) in if halt c then set_pc (u16 (pc c + 1)) (set_halt false c) else c.
Lemma irq_mode0 {Q} (FL : Flavour Q) dbg (c : cpu Q) : im c = Mode0 ->
  irq_no_check (TS:=TS) (WB:=WB) (RB:=RB) FL dbg c =
  AddIrq (ack_pc c) (fun ts => IrqData (ack_pc c) ts (fun v ws =>
    match ws with Some n => AddWait (ack_pc c) n (execute_instruction FL dbg v (ack_cpu c))
    | None => execute_instruction FL dbg v (ack_cpu c) end)).
Proof.
  intros EM. unfold irq_no_check, ack_pc, ack_cpu. cbv zeta. change (halt (inc_r (disable_interrupts c))) with (halt c).
  destruct (halt c).
  - change (im (set_pc (u16 (pc (inc_r (disable_interrupts c)) + 1)) (set_halt false (inc_r (disable_interrupts c))))) with (im c). now rewrite EM.
  - change (im (inc_r (disable_interrupts c))) with (im c). now rewrite EM.
Qed.
(** Modes 1 and 2 and refused or idle steps involve no instruction from the exceptions. *)
Definition ack_common {Q} (c : cpu Q) (bl : list (bev WB RB)) : Prop :=
  match bl with VAck _ v _ :: bl => im c = Mode0 -> common v (opcodes bl) | _ => True end.
Lemma irq_no_check_flav dbg (c1 : cpu Q1) (c2 : cpu Q2) : same_cpu c1 c2 ->
  agree same_res (irq_no_check FL1 dbg c1) (irq_no_check FL2 dbg c2) (fun l => ack_common c1 (buses l)).
Proof.
  intros HS. assert (EM : im c1 = Mode0 \/ im c1 <> Mode0) by (destruct (im c1); auto; right; discriminate).
  destruct EM as [EM|EM].
  - pose proof HS as HS0. apply same_crel in HS. destruct HS as (q & _ & ->). rewrite !irq_mode0 by exact EM.
    change (ack_pc (withx (af c1) (pc c1) (prefix c1) q c1)) with (ack_pc c1).
    apply agree_irq; intros t; apply agree_data; intros v w Hv.
    destruct w; [apply agree_wait|].
    all: refine (agree_mono _ _ _ _ _ _ (fun x y H => H) _ (execute_instruction_flav dbg v _ _ Hv _)).
    all: try (intros l HL; exact (HL EM)).
    all: apply same_crel; exists q; split; [exact I|]; unfold ack_cpu; cbv zeta;
      change (halt (inc_r (disable_interrupts (withx (af c1) (pc c1) (prefix c1) q c1)))) with (halt c1);
      change (halt (inc_r (disable_interrupts c1))) with (halt c1); destruct (halt c1); reflexivity.
  - pose proof (irq_no_check_ls (TS:=TS) (WB:=WB) (RB:=RB) FL1 FL2 dbg eq eq (fun _ => True) (fun _ => True) (fun _ _ => True)
      false false false false ltac:(auto) ltac:(auto) ltac:(discriminate) ltac:(discriminate) ltac:(discriminate) ltac:(discriminate)
      c1 c2 (fun e => False_ind _ (EM e)) (proj1 (same_crel _ _) HS)) as L.
    apply (lsim_agree _ _ _ _ _ L). intros x y [H1 H2]. split; [now apply same_crel|now apply resrel_eq].
Qed.
Lemma same_fields (c1 : cpu Q1) (c2 : cpu Q2) : same_cpu c1 c2 -> pc c1 = pc c2 /\ halt c1 = halt c2 /\ prefix c1 = prefix c2 /\
  last_ei c1 = last_ei c2 /\ iff1 c1 = iff1 c2 /\ is_irq_allowed c1 = is_irq_allowed c2.
Proof.
  intros [_ H2]. injection H2 as E1 _ _ E2 _ _ E3 _ E4 E5 _. unfold is_irq_allowed, is_int_allowed. rewrite E1, E2, E3, E4, E5. auto 10.
Qed.
Lemma agree_bind_ret {A1 A2 B1 B2} (R : A1 -> A2 -> Prop) (R' : B1 -> B2 -> Prop) (p1 : prog TS WB RB A1) p2 f1 f2 C :
  agree R p1 p2 C -> (forall x y, R x y -> R' (f1 x) (f2 y)) -> agree R' (pbind p1 (fun x => Ret (f1 x))) (pbind p2 (fun x => Ret (f2 x))) C.
Proof.
  intros H HR BS CK Hs b k x b' k' l E HC. rewrite runl_bind in E.
  destruct (runl Hs p1 b k) as [[[[x1 b1] k1] l1]|] eqn:E1; [|discriminate]. cbn [runl] in E. injection E as <- <- <- <-.
  rewrite app_nil_r in *. destruct (H _ _ Hs _ _ _ _ _ _ E1 HC) as (y & E2 & H2). exists (f2 y). split; [|auto].
  rewrite runl_bind, E2. cbn [runl]. now rewrite app_nil_r.
Qed.
Definition same_ores (x : cpu Q1 * option (result WB RB)) (y : cpu Q2 * option (result WB RB)) : Prop :=
  same_cpu (fst x) (fst y) /\ snd x = snd y.
Lemma irq_flav dbg (c1 : cpu Q1) (c2 : cpu Q2) : same_cpu c1 c2 ->
  agree same_ores (irq FL1 dbg c1) (irq FL2 dbg c2) (fun l => common_step c1 (buses l)).
Proof.
  intros HS. unfold irq. destruct (same_fields _ _ HS) as (_ & _ & _ & _ & _ & <-). destruct (is_irq_allowed c1).
  - refine (agree_bind_ret _ _ _ _ _ _ _ (agree_mono _ _ _ _ _ _ (fun x y H => H) _ (irq_no_check_flav dbg _ _ HS)) _).
    { intros l. unfold common_step, ack_common. destruct (buses l) as [|[]]; auto. } intros x y [H1 H2]. split; cbn [fst snd]; congruence.
  - apply agree_ret. split; auto.
Qed.
Lemma nmi_flav (c1 : cpu Q1) (c2 : cpu Q2) : same_cpu c1 c2 ->
  agree (fun x y => same_cpu (fst x) (fst y) /\ snd x = snd y) (nmi (TS:=TS) (WB:=WB) (RB:=RB) FL1 c1) (nmi FL2 c2) (fun _ => True).
Proof.
  intros HS. 
  pose proof (nmi_ls (TS:=TS) (WB:=WB) (RB:=RB) FL1 FL2 eq eq (fun _ => True) (fun _ => True) (fun _ _ => True)
      ltac:(auto) c1 c2 (proj1 (same_crel _ _) HS)) as L.
  apply (lsim_agree _ _ _ _ _ L). intros x y [H1 H2]. split; [now apply same_crel|now symmetry].
Qed.
(** The exceptions. *)
Lemma execute_ignored {Q} (FL : Flavour Q) dbg code (c : cpu Q) : decode_pfx code = P_IGNORE ->
  execute_instruction (TS:=TS) (WB:=WB) (RB:=RB) FL dbg code c =
  pbind (run_none FL dbg code (mkSt (begun FL (set_halt false (set_last_ei false c))) (get_flags c) (pc c) None))
    (fun x => Ret (store_st (fst x), to_result (snd x))).
Proof.
  intros E. unfold execute_instruction, load_st. cbv zeta. change (prefix (set_halt false (set_last_ei false c))) with (prefix c).
  destruct (prefix c) as [p|]; [rewrite (exec_code_ignore FL dbg _ _ _ _ _ E)|]; reflexivity.
Qed.
Lemma memptr_flav dbg code (c1 : cpu Q1) (c2 : cpu Q2) : In code memptr_stores -> same_cpu c1 c2 ->
  agree (fun x y => same_but_memptr (fst x) (fst y) /\ snd y = snd x)
    (execute_instruction FL1 dbg code c1) (execute_instruction FL2 dbg code c2) (fun _ => True).
Proof.
  intros Hc HS. apply same_crel in HS. destruct HS as (q & _ & ->).
  apply lsim_agree with (R := fun x y => same_but_memptr (fst x) (fst y) /\ snd y = snd x); [|auto].
  unfold memptr_stores in Hc. cbn [In] in Hc. decompose [or] Hc; try contradiction; subst code; clear Hc.
  all: rewrite !execute_ignored by reflexivity; destruct dbg; cbn; repeat (constructor; intros).
  all: subst; repeat match goal with o : option _ |- _ => destruct o end; cbn; repeat (constructor; intros).
Qed.
Lemma scf_mask q f : Z.land (scf q f) 215 = Z.land (scf 0 f) 215.
Proof.
  unfold scf, finsert, mask_xy. rewrite !Z.land_lor_distr_l, <- !Z.land_assoc. change (Z.land FXY 215) with 0.
  now rewrite !Z.land_0_r.
Qed.
Lemma ccf_mask q f : Z.land (ccf q f) 215 = Z.land (ccf 0 f) 215.
Proof.
  unfold ccf, finsert, mask_xy. cbv zeta. rewrite !Z.land_lor_distr_l, <- !Z.land_assoc. change (Z.land FXY 215) with 0.
  now rewrite !Z.land_0_r.
Qed.
Lemma scf_byte q f : byte f -> byte (scf q f).
Proof.
  intros Hf. unfold scf, finsert, mask_xy. apply lor_byte; [now apply ldiff_byte|]. apply lor_byte; [|unfold byte, FC; lia].
  apply land_byte_r. unfold byte, FXY. cbn. lia.
Qed.
Lemma ccf_byte q f : byte f -> byte (ccf q f).
Proof.
  intros Hf. unfold ccf, finsert, mask_xy, mask_hf, mask_carry, fif. cbv zeta. apply lor_byte; [now apply ldiff_byte|].
  repeat apply lor_byte; first [apply land_byte_r; unfold byte, FXY; cbn; lia|destruct (cf f); unfold byte, FH, FC; cbn; lia].
Qed.
Lemma scf_ccf_flav dbg code (c1 : cpu Q1) (c2 : cpu Q2) : In code scf_ccf -> same_cpu c1 c2 ->
  agree (fun x y => same_but_flags 0x28 (fst x) (fst y) /\ snd y = snd x)
    (execute_instruction FL1 dbg code c1) (execute_instruction FL2 dbg code c2) (fun _ => True).
Proof.
  intros Hc HS. apply same_crel in HS. destruct HS as (q & _ & ->).
  apply lsim_agree with (R := fun x y => same_but_flags 0x28 (fst x) (fst y) /\ snd y = snd x); [|auto].
  unfold scf_ccf in Hc. cbn [In] in Hc. decompose [or] Hc; try contradiction; subst code; clear Hc.
  all: rewrite !execute_ignored by reflexivity; destruct dbg; cbn -[same_but_flags store_st]; repeat (constructor; intros).
  all: unfold get_acc, get_flags, store_st; cbn; unfold set8lo; rewrite ?hi_mk, ?lo_mk by first [apply scf_byte, lo8_byte|apply ccf_byte, lo8_byte];
    rewrite ?(scf_mask (get_q _ _ _ _)), ?(ccf_mask (get_q _ _ _ _)); reflexivity.
Qed.
(** After 0xED. *)
Lemma run_ed_unfold {Q} (FL : Flavour Q) dbg (s : st (Q:=Q)) :
  run_none (TS:=TS) (WB:=WB) (RB:=RB) FL dbg 0xED s =
  AddM1 (spc s) (fun t => ReadOpcode (spc s) (get_ir (inc_r (sc s))) t (fun v =>
    run_ed FL dbg v (mkSt (inc_r (sc s)) (sfl s) (u16 (spc s + 1)) (spx s)))).
Proof. reflexivity. Qed.
Lemma out0_flav dbg (c1 : cpu Q1) (c2 : cpu Q2) BS CK (Hs : host TS WB RB BS CK) b k x b' k' l : same_cpu c1 c2 ->
  (forall b a v v' t, h_write_io Hs b a v t = h_write_io Hs b a v' t) ->
  runl Hs (execute_instruction FL1 dbg 0xED c1) b k = Some (x, b', k', l) -> opcodes (buses l) = [0x71] ->
  exists y l', runl Hs (execute_instruction FL2 dbg 0xED c2) b k = Some (y, b', k', l') /\ same_res x y.
Proof.
  intros HS HH E EO. apply same_crel in HS. destruct HS as (q & _ & ->).
  rewrite execute_ignored, run_ed_unfold in E by reflexivity. rewrite execute_ignored, run_ed_unfold by reflexivity.
  cbn [pbind runl spc sc sfl spx] in E |- *.
  change (pc (withx (af c1) (pc c1) (prefix c1) q c1)) with (pc c1).
  change (get_ir (inc_r (begun FL2 (set_halt false (set_last_ei false (withx (af c1) (pc c1) (prefix c1) q c1))))))
    with (get_ir (inc_r (begun FL1 (set_halt false (set_last_ei false c1))))).
  destruct (h_add_m1 Hs k (pc c1)) as [k1 t]. destruct (h_read_opcode Hs b _ _ _) as [b1 v].
  match type of E with cons_log _ (cons_log _ ?r) = _ => destruct r as [[[[x1 b2] k2] l1]|] eqn:E1; [|discriminate] end.
  cbn [cons_log] in E. injection E as <- <- <- <-. cbn in EO. injection EO as EO _. rewrite EO in *.
  destruct dbg; cbn in E1 |- *.
  all: rewrite ?app_nil_r; destruct (h_add_io _ _ _) as [k3 t3]; rewrite (HH _ _ _ (u8 (constant_out_data FL2))) in E1;
    destruct (h_write_io _ _ _ _ _) as [b3 [w ws]]; destruct ws; cbn in E1 |- *; destruct w; cbn in E1 |- *;
    injection E1 as <- <- <- <-.
  all: do 2 eexists; (split; [reflexivity|split; [split; reflexivity|reflexivity]]).
Qed.
Lemma ld_a_ir_mask v x f : Z.land (ld_a_ir v x f) 251 = Z.land (ld_a_ir v false f) 251.
Proof. unfold ld_a_ir. rewrite !Z.land_lor_distr_l. now destruct x. Qed.
Lemma ld_a_ir_byte v x f : byte v -> byte (ld_a_ir v x f).
Proof.
  intros Hv. unfold ld_a_ir, mask_sxy, mask_zero, mask_pvf, fif. repeat apply lor_byte.
  - apply land_byte_r. unfold byte, FS, FXY. cbn. lia.
  - destruct (v =? 0); unfold byte, FZ; cbn; lia.
  - destruct x; unfold byte, FPV; cbn; lia.
  - apply land_byte_r. unfold byte, FC. cbn. lia.
Qed.
Lemma ld_leaf (c1 : cpu Q1) (q1 : Q1) (q2 q : Q2) v x1 x2 f p px : byte v -> byte f ->
  same_but_flags 4 (store_st (mkSt (set_acc v (set_flavour q1 c1)) (ld_a_ir v x1 f) p px))
    (store_st (mkSt (set_acc v (set_flavour q2 (withx (af c1) (pc c1) (prefix c1) q c1))) (ld_a_ir v x2 f) p px)).
Proof.
  intros Hv Hf. unfold same_but_flags, store_st, get_acc, get_flags. cbn. unfold set8lo, set8hi.
  rewrite !hi_mk, !lo_mk by first [apply ld_a_ir_byte; exact Hv|apply lo8_byte].
  rewrite (ld_a_ir_mask v x1), (ld_a_ir_mask v x2). repeat split.
Qed.
Lemma ld_body {Q} (FL : Flavour Q) i (s : st (Q:=Q)) BS CK (Hs : host TS WB RB BS CK) b k :
  (forall b t, fst (h_is_irq Hs b t) = b) ->
  exists x l, runl Hs (instr_ld_a_from_ir FL i s) b k =
    Some ((mkSt (set_acc (if i then hi8 (get_ir (sc s)) else lo8 (get_ir (sc s))) (set_flavour (flags_modified FL (flavour (sc s))) (sc s)))
      (ld_a_ir (if i then hi8 (get_ir (sc s)) else lo8 (get_ir (sc s))) x (sfl s)) (spc s) (spx s), tt),
      b, h_add_no_mreq Hs k (get_ir (sc s)) 1, l).
Proof.
  intros HH. unfold instr_ld_a_from_ir. cbn -[get_ir ld_a_ir hi8 lo8 set_acc].
  destruct (iff2 (sc s)); [destruct (accept_irq_early FL && iff1 (sc s))|].
  - cbn -[get_ir ld_a_ir hi8 lo8 set_acc]. pose proof (HH b (h_as_ts Hs (h_add_no_mreq Hs k (get_ir (sc s)) 1))) as X.
    destruct (h_is_irq _ _ _) as [b1 x]. cbn [fst] in X. subst b1. exists (negb x). eexists. reflexivity.
  - exists true. eexists. reflexivity.
  - exists false. eexists. reflexivity.
Qed.
Lemma ld_unfold {Q} (FL : Flavour Q) dbg (i : bool) (s : st (Q:=Q)) :
  run_ed (TS:=TS) (WB:=WB) (RB:=RB) FL dbg (if i then 0x57 else 0x5F) s =
  pbind (cpu_debug dbg [0xED; if i then 0x57 else 0x5F] "LD" (a2 (d_r A) (if i then d_I else d_R)) s)
    (fun x => pbind (instr_ld_a_from_ir FL i (fst x)) (fun y => Ret (fst y, None))).
Proof. destruct i; reflexivity. Qed.
Lemma cpu_debug_run {Q} dbg (i : bool) c (s : st (Q:=Q)) BS CK (Hs : host TS WB RB BS CK) b k : spx s = None ->
  exists l, runl Hs (cpu_debug dbg [0xED; c] "LD" (a2 (d_r A) (if i then d_I else d_R)) s) b k = Some ((s, tt), b, k, l).
Proof. intros E. unfold cpu_debug, prefix_bytes. rewrite E. destruct dbg, i; eexists; reflexivity. Qed.
Lemma ld_a_ir_flav dbg (c1 : cpu Q1) (c2 : cpu Q2) BS CK (Hs : host TS WB RB BS CK) b k x b' k' l v0 : same_cpu c1 c2 ->
  (forall b t, fst (h_is_irq Hs b t) = b) ->
  runl Hs (execute_instruction FL1 dbg 0xED c1) b k = Some (x, b', k', l) -> opcodes (buses l) = [v0] -> In v0 [0x57; 0x5F] ->
  exists y l', runl Hs (execute_instruction FL2 dbg 0xED c2) b k = Some (y, b', k', l') /\
    same_but_flags 0x04 (fst x) (fst y) /\ snd y = snd x.
Proof.
  intros HS HH E EO HI. apply same_crel in HS. destruct HS as (q & _ & ->).
  rewrite execute_ignored, run_ed_unfold in E by reflexivity. rewrite execute_ignored, run_ed_unfold by reflexivity.
  cbn [pbind runl spc sc sfl spx] in E |- *.
  change (pc (withx (af c1) (pc c1) (prefix c1) q c1)) with (pc c1).
  change (get_ir (inc_r (begun FL2 (set_halt false (set_last_ei false (withx (af c1) (pc c1) (prefix c1) q c1))))))
    with (get_ir (inc_r (begun FL1 (set_halt false (set_last_ei false c1))))).
  destruct (h_add_m1 Hs k (pc c1)) as [k1 t]. destruct (h_read_opcode Hs b _ _ _) as [b1 v].
  match type of E with cons_log _ (cons_log _ ?r) = _ => destruct r as [[[[x1 b2] k2] l1]|] eqn:E1; [|discriminate] end.
  cbn [cons_log] in E. injection E as <- <- <- <-. cbn in EO. injection EO as EO _. rewrite EO in E1 |- *. clear EO.
  assert (EI : exists i : bool, v0 = if i then 0x57 else 0x5F).
  { cbn [In] in HI. decompose [or] HI; try contradiction; subst v0; [now exists true|now exists false]. }
  clear HI. destruct EI as [i ->]. rewrite ld_unfold in E1. rewrite ld_unfold. rewrite !runl_bind in E1.
  match type of E1 with context [runl _ (cpu_debug ?d [_; ?x] _ _ ?s) ?b ?k] => destruct (cpu_debug_run d i x s _ _ Hs b k eq_refl) as (l3 & X) end.
  rewrite X in E1. clear X. cbn [fst] in E1. rewrite runl_bind in E1.
  match type of E1 with context [runl _ (instr_ld_a_from_ir ?F ?i ?s) ?b ?k] => destruct (ld_body F i s _ _ Hs b k HH) as (x3 & l4 & X) end.
  rewrite X in E1. clear X. cbn [runl fst snd] in E1. injection E1 as <- <- <- <-.
  rewrite !runl_bind.
  match goal with |- context [runl _ (cpu_debug ?d [_; ?x] _ _ ?s) ?b ?k] => destruct (cpu_debug_run d i x s _ _ Hs b k eq_refl) as (l5 & X) end.
  rewrite X. clear X. cbn [fst]. rewrite runl_bind.
  match goal with |- context [runl _ (instr_ld_a_from_ir ?F ?i ?s) ?b ?k] => destruct (ld_body F i s _ _ Hs b k HH) as (x4 & l6 & X) end.
  rewrite X. clear X. cbn [runl fst snd cons_log]. do 2 eexists. (split; [reflexivity|split; [|reflexivity]]).
  cbn [fst snd].
  refine (ld_leaf (inc_r (begun FL1 (set_halt false (set_last_ei false c1)))) _ _ (begin_instruction FL2 q) _ _ _ _ _ _ _ _); [|apply lo8_byte].
  destruct i; [apply hi8_byte; unfold get_ir; apply lor_word; apply land_word_r; unfold word; lia|apply lo8_byte].
Qed.
Lemma fetch_unfold {Q} p (c : cpu Q) {A} (g : cpu Q * (Z * Z) -> prog TS WB RB A) :
  pbind (on_cpu (fetch_next_opcode p) c) g =
  AddM1 p (fun t => ReadOpcode p (get_ir (inc_r c)) t (fun v => g (inc_r c, (u16 (p + 1), v)))).
Proof. reflexivity. Qed.
Lemma execute_next_flav dbg (c1 : cpu Q1) (c2 : cpu Q2) : same_cpu c1 c2 ->
  agree same_res (execute_next FL1 dbg c1) (execute_next FL2 dbg c2) (fun l => common_step c1 (buses l)).
Proof.
  intros HS. destruct (same_fields _ _ HS) as (EP & EH & EX & EE & EI & EA). unfold execute_next, test_irq. rewrite <- EA.
  assert (ID : forall p : list (ev TS WB RB) -> list (bev WB RB), (forall l, p l = buses l \/ exists x, p l = VIrq x :: buses l) ->
    agree same_res (if halt c1 then AddM1 (pc c1) (fun _ => Ret (inc_r c1, None))
      else pbind (on_cpu (fetch_next_opcode (pc c1)) c1) (fun x => execute_instruction FL1 dbg (snd (snd x)) (set_pc (fst (snd x)) (fst x))))
     (if halt c2 then AddM1 (pc c2) (fun _ => Ret (inc_r c2, None))
      else pbind (on_cpu (fetch_next_opcode (pc c2)) c2) (fun x => execute_instruction FL2 dbg (snd (snd x)) (set_pc (fst (snd x)) (fst x))))
     (fun l => common_step c1 (p l))).
  { intros p Hp. rewrite !fetch_unfold, <- EP, <- EH. clear EA. apply same_crel in HS. destruct HS as (q & _ & ->). destruct (halt c1).
    - apply agree_m1. intros t. apply agree_ret. split; [|reflexivity]. apply same_crel. exists q. split; [exact I|reflexivity].
    - change (get_ir (inc_r (withx (af c1) (pc c1) (prefix c1) q c1))) with (get_ir (inc_r c1)).
      apply agree_m1. intros t. apply agree_op. intros v Hv. cbn [fst snd].
      refine (agree_mono _ _ _ _ _ _ (fun x y H => H) _ (execute_instruction_flav dbg v _ _ Hv _)).
      + intros l. destruct (Hp (KM1 (pc c1) t :: EOp (pc c1) (get_ir (inc_r c1)) t v :: l)) as [->|[x ->]]; exact (fun H => H).
      + apply same_crel. exists q. split; [exact I|reflexivity]. }
  destruct (is_irq_allowed c1).
  - apply agree_ts_irq. intros t x. destruct x.
    + refine (agree_mono _ _ _ _ _ _ (fun x y H => H) _ (irq_no_check_flav dbg _ _ HS)).
      intros l. change (buses (KTs t :: EIsIrq t true :: l)) with (VIrq (WB:=WB) (RB:=RB) true :: buses l).
      unfold common_step, ack_common. destruct (buses l) as [|[]]; auto.
    + apply (ID (fun l => VIrq false :: buses l)). intros l. right. now exists false.
  - apply (ID buses). auto.
Qed.

(** As stated in the property file. *)
Context {BS CK : Type} (H : host TS WB RB BS CK).
Lemma agree_pair {X} (R : cpu Q1 -> cpu Q2 -> Prop) (p1 : prog TS WB RB (cpu Q1 * X)) p2 C :
  agree (fun x y => R (fst x) (fst y) /\ snd y = snd x) p1 p2 C -> forall b k c1' x b' k' l,
  runl H p1 b k = Some ((c1', x), b', k', l) -> C l ->
  exists c2', runl H p2 b k = Some ((c2', x), b', k', l) /\ R c1' c2'.
Proof.
  intros HA b k c1' x b' k' l E HC. destruct (HA _ _ H _ _ _ _ _ _ E HC) as ([c2' y] & E' & HR & EY). cbn [fst snd] in *. subst y.
  eauto.
Qed.
Lemma execute_instruction_flav' dbg code (c1 : cpu Q1) (c2 : cpu Q2) b k c1' x b' k' l : byte code -> same_cpu c1 c2 ->
  runl H (execute_instruction FL1 dbg code c1) b k = Some ((c1', x), b', k', l) -> common code (opcodes (buses l)) ->
  exists c2', runl H (execute_instruction FL2 dbg code c2) b k = Some ((c2', x), b', k', l) /\ same_cpu c1' c2'.
Proof. intros Hc HS. apply (agree_pair same_cpu _ _ _ (execute_instruction_flav dbg code c1 c2 Hc HS)). Qed.
Lemma execute_next_flav' dbg (c1 : cpu Q1) (c2 : cpu Q2) b k c1' x b' k' l : same_cpu c1 c2 ->
  runl H (execute_next FL1 dbg c1) b k = Some ((c1', x), b', k', l) -> common_step c1 (buses l) ->
  exists c2', runl H (execute_next FL2 dbg c2) b k = Some ((c2', x), b', k', l) /\ same_cpu c1' c2'.
Proof. intros HS. apply (agree_pair same_cpu _ _ _ (execute_next_flav dbg c1 c2 HS)). Qed.
Lemma irq_flav' dbg (c1 : cpu Q1) (c2 : cpu Q2) b k c1' x b' k' l : same_cpu c1 c2 ->
  runl H (irq FL1 dbg c1) b k = Some ((c1', x), b', k', l) -> common_step c1 (buses l) ->
  exists c2', runl H (irq FL2 dbg c2) b k = Some ((c2', x), b', k', l) /\ same_cpu c1' c2'.
Proof.
  intros HS. refine (agree_pair same_cpu _ _ _ (agree_mono _ _ _ _ _ _ _ (fun l X => X) (irq_flav dbg c1 c2 HS)) _ _ _ _ _ _ _).
  intros [] [] [E1 E2]. split; [exact E1|now symmetry].
Qed.
Lemma nmi_flav' (c1 : cpu Q1) (c2 : cpu Q2) b k c1' x b' k' l : same_cpu c1 c2 ->
  runl H (nmi FL1 c1) b k = Some ((c1', x), b', k', l) ->
  exists c2', runl H (nmi FL2 c2) b k = Some ((c2', x), b', k', l) /\ same_cpu c1' c2'.
Proof.
  intros HS E. refine (agree_pair same_cpu _ _ _ (agree_mono _ _ _ _ _ _ _ (fun l X => X) (nmi_flav c1 c2 HS)) _ _ _ _ _ _ _ E I).
  intros [] [] [E1 E2]. split; [exact E1|now symmetry].
Qed.
Lemma scf_ccf_flav' dbg code (c1 : cpu Q1) (c2 : cpu Q2) b k c1' x b' k' l : In code scf_ccf -> same_cpu c1 c2 ->
  runl H (execute_instruction FL1 dbg code c1) b k = Some ((c1', x), b', k', l) ->
  exists c2', runl H (execute_instruction FL2 dbg code c2) b k = Some ((c2', x), b', k', l) /\ same_but_flags 0x28 c1' c2'.
Proof. intros Hc HS E. exact (agree_pair (same_but_flags 0x28) _ _ _ (scf_ccf_flav dbg code c1 c2 Hc HS) _ _ _ _ _ _ _ E I). Qed.
Lemma memptr_flav' dbg code (c1 : cpu Q1) (c2 : cpu Q2) b k c1' x b' k' l : In code memptr_stores -> same_cpu c1 c2 ->
  runl H (execute_instruction FL1 dbg code c1) b k = Some ((c1', x), b', k', l) ->
  exists c2', runl H (execute_instruction FL2 dbg code c2) b k = Some ((c2', x), b', k', l) /\ same_but_memptr c1' c2'.
Proof. intros Hc HS E. exact (agree_pair same_but_memptr _ _ _ (memptr_flav dbg code c1 c2 Hc HS) _ _ _ _ _ _ _ E I). Qed.
Lemma out0_flav' dbg (c1 : cpu Q1) (c2 : cpu Q2) b k c1' x b' k' l : same_cpu c1 c2 ->
  (forall b p v v' t, h_write_io H b p v t = h_write_io H b p v' t) ->
  runl H (execute_instruction FL1 dbg 0xED c1) b k = Some ((c1', x), b', k', l) -> opcodes (buses l) = [0x71] ->
  exists c2' l', runl H (execute_instruction FL2 dbg 0xED c2) b k = Some ((c2', x), b', k', l') /\ same_cpu c1' c2'.
Proof.
  intros HS HH E EO. destruct (out0_flav dbg c1 c2 _ _ H _ _ _ _ _ _ HS HH E EO) as ([c2' y] & l' & E' & HR & EY). cbn [fst snd] in *.
  subst y. eauto.
Qed.
Lemma ld_a_ir_flav' dbg (c1 : cpu Q1) (c2 : cpu Q2) b k c1' x b' k' l v : same_cpu c1 c2 ->
  (forall b t, fst (h_is_irq H b t) = b) ->
  runl H (execute_instruction FL1 dbg 0xED c1) b k = Some ((c1', x), b', k', l) ->
  opcodes (buses l) = [v] -> In v [0x57; 0x5F] ->
  exists c2' l', runl H (execute_instruction FL2 dbg 0xED c2) b k = Some ((c2', x), b', k', l') /\ same_but_flags 0x04 c1' c2'.
Proof.
  intros HS HH E EO HI. destruct (ld_a_ir_flav dbg c1 c2 _ _ H _ _ _ _ _ _ _ HS HH E EO HI) as ([c2' y] & l' & E' & HR & EY).
  cbn [fst snd] in *. subst y. eauto.
Qed.
Lemma common_run_flav (c1 c1' : cpu Q1) b k b' k' l : common_run FL1 H c1 b k c1' b' k' l -> forall c2 : cpu Q2, same_cpu c1 c2 ->
  exists c2', common_run FL2 H c2 b k c2' b' k' l /\ same_cpu c1' c2'.
Proof.
  induction 1 as [c b k|dbg c b k c3 x b1 k1 l c4 b2 k2 xs E HC HR IH]; intros c2 HS.
  - exists c2. split; [constructor|exact HS].
  - destruct (execute_next_flav' _ _ _ _ _ _ _ _ _ _ HS E HC) as (c5 & E5 & H5). destruct (IH _ H5) as (c6 & H6 & H7).
    exists c6. split; [|exact H7]. econstructor; [exact E5| |exact H6].
    assert (EM : im c2 = im c) by (destruct HS as [_ HS]; injection HS; congruence).
    unfold common_step in *. rewrite EM. exact HC.
Qed.
End Two.
