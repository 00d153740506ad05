(** Interrupts with the table of vectors moved to memory of the user. *)
From Coq Require Import ZArith Bool List Lia.
From Verif Require Import Base Flags Ops Parse Cpu Flavours Prog Trace Internal Instr Exec Range Clock RalMemory RalBus SpecRal RalMemProofs RalBusProofs SpecAlu SpecState SpecIsa
  AluProofs IsaLink IsaRun Steps Asm RomImage SpecRom RomHoare RomAsm RomIo RomRun SpecLib.
Import ListNotations.
Open Scope Z_scope.

Section Asm.
Context {T WB RB : Type}.
Variable ch : SpecIsa.chip T.
Variable q : bool.
Variable top : Z.
Variable P : arch T -> mem -> list io -> Prop.
Notation goes := (goes (WB:=WB) (RB:=RB) ch q top P).
Notation tree := (cyc WB RB (arch T * outcome WB RB)).
Definition finr (x : arch T * outcome WB RB) (m : mem) (o : list io) : Prop := goes (fst x) m o.
(** An interrupt in mode 2 with the table in memory of the user. *)
Lemma taken_far (h : bool) pc sp a f bc de hl x i i1 i2 (j : junk3 T) m o : 0x4002 <= sp <= top -> top <= 0x10000 -> 0x40 <= i < 0xFF ->
  (forall v j, 0 <= v < 256 -> let m' := mupd (mupd m (sp - 1) (hi (if h then w16 (pc + 1) else pc) mod 256)) (sp - 2) (lo (if h then w16 (pc + 1) else pc) mod 256) in
    goes (Sr (word_of (m' (256 * i + v + 1)) (m' (256 * i + v))) (sp - 2) a f bc de hl x (mkCtl i Mode2 false false false) j)
    m' (o ++ [IAck v])) ->
  on (WB:=WB) (RB:=RB) ch q top P false (accept_int ch ((if h then @Hr T else @Sr T) pc sp a f bc de hl x (mkCtl i Mode2 i1 i2 false) j)) m o.
Proof.
  intros Hs Ht Hi H. apply on_wpr. destruct j as [wz r t].
  set (pc' := if h then w16 (pc + 1) else pc) in H.
  assert (E : exists r', accept_int (WB:=WB) (RB:=RB) ch ((if h then @Hr T else @Sr T) pc sp a f bc de hl x (mkCtl i Mode2 i1 i2 false) (mkJunk3 wz r t)) =
    SAck pc' (fun v => SX (word_of i r') 1 (push pc' (Sr pc' sp a f bc de hl x (mkCtl i Mode2 false false false) (mkJunk3 wz r' (c_begin ch t)))
      (fun b => rd16 (word_of (aI b) v) (fun ad => done (jump ad b)))))).
  { destruct h; eexists; reflexivity. }
  destruct E as [r' ->]. cbn [wpr]. intros v Hv. unfold push, rd16, done. cbn [wpr aSP Sr wSP aI kI].
  assert (W1 : w16 (sp - 1) = sp - 1) by (apply w16_id; lia). assert (W2 : w16 (sp - 2) = sp - 2) by (apply w16_id; lia). rewrite W1, W2.
  assert (W3 : w16 (word_of i v + 1) = word_of i v + 1) by (unfold word_of; apply w16_id; lia).
  unfold wrable, rdable, word_of in *. rewrite W3.
  repeat (split; [lia|]). specialize (H v (mkJunk3 (256 * mupd (mupd m (sp - 1) (hi pc' mod 256)) (sp - 2) (lo pc' mod 256) (256 * i + v + 1) + mupd (mupd m (sp - 1) (hi pc' mod 256)) (sp - 2) (lo pc' mod 256) (256 * i + v)) r' (c_begin ch t)) Hv).
  cbv zeta in H. exact H.
Qed.
End Asm.

Section Irq.
Context {T : Type}.
Variable ch : SpecIsa.chip T.
Variable q : bool.
Variable top : Z.
Hypothesis HT : 0x4000 <= top <= 0x10000.
Variables (a0 : arch T) (m : mem).
Hypothesis (C : codeR m) (Y : bytesR m) (A : 0 <= aA a0 < 256) (F : 0 <= aF a0 < 256) (HL : 0 <= aHL a0 < 0x10000) (PCR : 0 <= aPC a0 < 0x10000)
  (S : 0x4006 <= aSP a0 <= top) (S' : aSP a0 < 0x10000) (IM2 : aIM a0 = Mode2) (PX : aPX a0 = None) (EI0 : aEI a0 = false)
  (I1 : 0x40 <= aI a0 < 0xFF) (OUT : 256 * aI a0 + 12 <= aSP a0 - 2 \/ aSP a0 <= 256 * aI a0) (TB : forall i, 0 <= i < 12 -> m (256 * aI a0 + i) = m (0x100 + i)).
Lemma irq_far_on P : (forall v a' m' o, In v vectors -> mid a0 m v a' m' o -> goes (WB:=unit) (RB:=unit) ch q top P a' m' o) ->
  (forall v a' m', ~ In v vectors -> P a' m' [IAck v]) ->
  on (WB:=unit) (RB:=unit) ch q top P false (accept_int ch a0) m [].
Proof.
  intros K1 K2. rewrite (state_is a0 PX). unfold ctl_of. rewrite EI0, IM2. apply taken_far; [lia|lia|lia|].
  intros v j Hv m1. assert (RES : (if aHALT a0 then w16 (aPC a0 + 1) else aPC a0) = resume a0) by reflexivity.
  assert (P2 : pushed2 a0 m m1).
  { unfold m1. rewrite RES. pose proof (resume_range a0 PCR) as RR. pose proof (hi_range (resume a0) RR) as HR. pose proof (lo_range (resume a0)) as LR.
    rewrite !Z.mod_small by lia. split; [apply codeR_upd; [apply codeR_upd; [exact C|lia]|lia]|]. split; [apply bytesR_upd; [apply bytesR_upd; [exact Y|lia]|lia]|].
    unfold mupd. split; [|split].
    - intros y Hy. destruct (Z.eqb_spec y (aSP a0 - 2)); [lia|]. destruct (Z.eqb_spec y (aSP a0 - 1)); [lia|reflexivity].
    - destruct (Z.eqb_spec (aSP a0 - 1) (aSP a0 - 2)); [lia|]. rewrite Z.eqb_refl. reflexivity.
    - rewrite Z.eqb_refl. reflexivity. }
  clearbody m1. cbn [app].
  destruct (in_dec Z.eq_dec v vectors) as [I|I]; [|apply g_now; apply K2; exact I].
  assert (EE : word_of (m1 (256 * aI a0 + v + 1)) (m1 (256 * aI a0 + v)) = entry v).
  { unfold entry. assert (V10 : 0 <= v <= 10) by (unfold vectors in I; cbn [In] in I; lia). destruct P2 as (_ & _ & U & _). rewrite !U by lia.
    replace (256 * aI a0 + v + 1) with (256 * aI a0 + (v + 1)) by lia. rewrite !TB by lia. rewrite !(C _) by lia. do 3 f_equal. lia. }
  rewrite EE. specialize (K1 v). unfold vectors in I. cbn [In] in I. clear K2 EE RES. revert j.
  assert (S2 : 0x2016 <= aSP a0 <= top) by lia.
  destruct I as [<-|[<-|[<-|[<-|[<-|[<-|[]]]]]]].
  - apply (serve_clock) with (m := m); try assumption; [intros a' m' o; apply K1; cbn; tauto].
  - apply (serve_none) with (m := m); try assumption; [lia|intros a' m' o; apply K1; cbn; tauto].
  - apply (serve_none) with (m := m); try assumption; [lia|intros a' m' o; apply K1; cbn; tauto].
  - apply (serve_none) with (m := m); try assumption; [lia|intros a' m' o; apply K1; cbn; tauto].
  - apply (serve_in) with (m := m); try assumption; [intros a' m' o; apply K1; cbn; tauto].
  - apply (serve_out) with (m := m); try assumption; [intros a' m' o; apply K1; cbn; tauto].
Qed.

Lemma irq_first_far_on : on (WB:=unit) (RB:=unit) ch q top (irq_first a0 m) false (accept_int ch a0) m [].
Proof.
  apply irq_far_on.
  - intros v a' m' o I (o' & SV & _ & X). apply g_now. exists v. split; [|intros N; contradiction]. intros _. exists o'. split; [exact SV|exact X].
  - intros v a' m' N. exists v. split; [intros I; contradiction|reflexivity].
Qed.
End Irq.
Section IrqBack.
Context {T : Type}.
Variable ch : SpecIsa.chip T.
Variable top : Z.
Hypothesis HT : 0x4000 <= top <= 0x10000.
Variables (a0 : arch T) (m : mem).
Hypothesis (C : codeR m) (Y : bytesR m) (A : 0 <= aA a0 < 256) (F : 0 <= aF a0 < 256) (HL : 0 <= aHL a0 < 0x10000) (PCR : 0 <= aPC a0 < 0x10000)
  (S : 0x4006 <= aSP a0 <= top) (S' : aSP a0 < 0x10000) (IM2 : aIM a0 = Mode2) (PX : aPX a0 = None) (EI0 : aEI a0 = false)
  (I1 : 0x40 <= aI a0 < 0xFF) (OUT : 256 * aI a0 + 12 <= aSP a0 - 2 \/ aSP a0 <= 256 * aI a0) (TB : forall i, 0 <= i < 12 -> m (256 * aI a0 + i) = m (0x100 + i)).
Lemma irq_post_far_on : on (WB:=unit) (RB:=unit) ch false top (irq_post a0 m) false (accept_int ch a0) m [].
Proof.
  apply irq_far_on; try assumption.
  2: { intros v a' m' N. exists v. split; [intros I; contradiction|reflexivity]. }
  intros v a' m' o I (o' & SV & C' & X). destruct ((v =? 8) || (v =? 10)) eqn:EV.
  - destruct X as (-> & R & B' & D' & H' & NH & MA & MF & MW). destruct R.
    rewrite (state_is a') by assumption. rewrite NH. unfold ctl_of. rewrite rd_pc, rd_sp, rd_bc, rd_de, rd_hl, rd_1, rd_2.
    assert (MA' : m' (aSP a0 - 4 + 1) = aA a0) by (replace (aSP a0 - 4 + 1) with (aSP a0 - 3) by lia; exact MA).
    apply leave; [left; reflexivity|exact C'|lia|lia|destruct (v =? 8); [right|left]; reflexivity|lia|lia|].
    intros j. apply g_now. exists v. split; [|intros N; contradiction]. intros _. exists o'. split; [reflexivity|].
    replace (aSP a0 - 4 + 4) with (aSP a0) by lia. replace (aSP a0 - 4 + 3) with (aSP a0 - 2 + 1) by lia. replace (aSP a0 - 4 + 2) with (aSP a0 - 2) by lia.
    rewrite MA', MF, w16_id by lia. unfold word_at in MW. unfold word_of. rewrite Z.add_comm, MW.
    split; [|exact SV]. split; [constructor; try reflexivity; cbn; congruence|]. cbn. auto 9.
  - destruct X as (-> & R). apply g_now. exists v. split; [|intros N; contradiction]. intros _. exists o'. auto.
Qed.
End IrqBack.
