(** The library routines from RST 28h to their end, on the specification. *)
From Coq Require Import ZArith Bool List Lia.
From Verif Require Import Base Parse Cpu Flavours Range Clock RalMemory RalBus SpecRal SpecAlu SpecState SpecIsa AluProofs IsaLink IsaRun Trace Asm RomImage SpecRom RomHoare RomAsm RomIo RomRun SpecLib RomLib RomLib2.
Import ListNotations.
Open Scope Z_scope.

Section Start.
Context {T : Type}.
Variable ch : SpecIsa.chip T.
Variable top : Z.
Hypothesis HT : 0x4000 <= top <= 0x10000.
Variable m : mem.
Hypothesis (C : codeR m) (Y : bytesR m).
Lemma still_refl : still m m []. Proof. split; [reflexivity|]. intros y _ _. reflexivity. Qed.
Lemma word_of_at sp : word_of (m (sp + 1)) (m sp) = word_at m sp. Proof. unfold word_of, word_at. lia. Qed.
Lemma in_have : have (in_of m) = if bitn (m 0x2005) 1 then Some (m 0x2004) else None. Proof. reflexivity. Qed.
Lemma out_waiting : waiting (out_of m) = if bitn (m 0x2005) 2 then Some (m 0x2006) else None. Proof. reflexivity. Qed.
(** A RET among the routines. *)
Lemma ret_any (P : arch T -> mem -> list io -> Prop) pc sp a f bc de hl x k (j : junk3 T) : nth (Z.to_nat pc) kernel 255 = 201 -> 0 <= pc < 0x2000 -> 0x4000 <= sp -> sp + 2 < 0x10000 -> 
  (forall j, P (Sr (word_at m sp) (sp + 2) a f bc de hl x (mkCtl (kI k) (kIM k) (k1 k) (k2 k) false) j) m []) ->
  RomHoare.goes (WB:=unit) (RB:=unit) ch false top P (Sr pc sp a f bc de hl x k j) m [].
Proof.
  intros E0 PC B1 B2 K. destruct k as [i im i1 i2 e]. apply goes_op; [exact PC|left; reflexivity|]. intros q jA. rewrite (C pc PC), E0.
  change (decode 201) with I_RET. body. apply g_now. rewrite word_of_at. apply K.
Qed.
(** RST 28h: to the routine, with the caller's registers in the other set. *)
Lemma rst28 (P : arch T -> mem -> list io -> Prop) n t sp f bc de hl x i im i1 i2 e (j : junk3 T) :
  In (n, t) [(0, 0x196); (2, 0x1AB); (4, 0x1B2); (6, 0x1C6); (8, 0x1E2); (10, 0x1F1); (12, 0x1F8); (14, 0x203); (24, 0x2B2); (26, 0x2C1)] ->
  (forall f1 j, Cf f1 = Cf f -> RomHoare.goes (WB:=unit) (RB:=unit) ch false top P (Sr t sp (t mod 256) f1 (rBC x) (rDE x) t (mkRest (rAF x) bc de hl (rIX x) (rIY x)) (mkCtl i im i1 i2 false) j) m []) ->
  RomHoare.goes (WB:=unit) (RB:=unit) ch false top P (Sr 0x28 sp n f bc de hl x (mkCtl i im i1 i2 e) j) m [].
Proof.
  intros I K. cbn [In] in I.
  repeat (destruct I as [I|I]; [injection I as <- <-; do 8 istep; apply K; apply Cf_inc|]). contradiction.
Qed.
Notation G P := (RomHoare.goes (WB:=unit) (RB:=unit) ch false top P).
Notation swapped x bc de hl := (mkRest (rAF x) bc de hl (rIX x) (rIY x)).
Section Open.
Variable P : arch T -> mem -> list io -> Prop.
Variables (sp f bc de hl i : Z) (x : rest) (im : InterruptMode) (i1 i2 e : bool).
Hypothesis (B1 : 0x4000 <= sp) (B2 : sp + 2 < 0x10000) (BC : 0 <= bc < 65536) (HL : 0 <= hl < 65536).
Lemma frames_28 (j : junk3 T) : (forall a f x' j, rAF x' = rAF x -> rIX x' = rIX x -> rIY x' = rIY x ->
    P (Sr (word_at m sp) (sp + 2) a f bc (word_of (m 0x2001) (m 0x2000)) (word_of (m 0x2003) (m 0x2002)) x' (mkCtl i im true true false) j) m []) ->
  G P (Sr 0x28 sp 26 f bc de hl x (mkCtl i im i1 i2 e) j) m [].
Proof.
  intros K. apply (rst28 P 26 0x2C1); [cbn; tauto|]. intros f1 jA _. do 2 istep. apply frames_2C3; [exact C|left; reflexivity|exact B1|exact B2|]. intros jB. apply g_now.
  rewrite word_of_at. apply K; reflexivity.
Qed.
Lemma peek_28 (j : junk3 T) : 
  (bitn (m 0x2005) 1 = true -> forall f x' j, Zf f = false -> rAF x' = rAF x -> rIX x' = rIX x -> rIY x' = rIY x ->
     P (Sr (word_at m sp) (sp + 2) (m 0x2004) f bc de hl x' (mkCtl i im true true false) j) m []) ->
  (bitn (m 0x2005) 1 = false -> Cf f = false -> forall a f x' j, Zf f = true -> rAF x' = rAF x -> rIX x' = rIX x -> rIY x' = rIY x ->
     P (Sr (word_at m sp) (sp + 2) a f bc de hl x' (mkCtl i im true true false) j) m []) ->
  (bitn (m 0x2005) 1 = false -> Cf f = true -> forall a f bc' de' j, Cf f = true ->
     P (Hr 0x1C2 sp a f bc' de' 0x2005 (swapped x bc de hl) (mkCtl i im true true false) j) m []) ->
  G P (Sr 0x28 sp 4 f bc de hl x (mkCtl i im i1 i2 e) j) m [].
Proof.
  intros K1 K2 K3. apply (rst28 P 4 0x1B2); [cbn; tauto|]. intros f1 jA CF. do 2 istep. apply peek_1B6; try assumption; [left; reflexivity|..]; rewrite ?CF; cbn [rBC rDE rHL rAF rIX rIY].
  - intros B f2 h2 jB Z2. apply ret_any; [reflexivity|lia|exact B1|exact B2|]. intros jC. apply K1; try reflexivity; assumption.
  - intros B CF2 f2 h2 jB Z2. apply ret_any; [reflexivity|lia|exact B1|exact B2|]. intros jC. apply K2; try reflexivity; assumption.
  - intros B CF2 f2 jB C2. apply g_now. apply K3; assumption.
Qed.
Lemma peek_1C3 a b2 d2 (j : junk3 T) : 
  (bitn (m 0x2005) 1 = true -> forall f x' j, Zf f = false -> rAF x' = rAF x -> rIX x' = rIX x -> rIY x' = rIY x ->
     P (Sr (word_at m sp) (sp + 2) (m 0x2004) f (rBC x) (rDE x) (rHL x) x' (mkCtl i im true true false) j) m []) ->
  (bitn (m 0x2005) 1 = false -> Cf f = false -> forall a f x' j, Zf f = true -> rAF x' = rAF x -> rIX x' = rIX x -> rIY x' = rIY x ->
     P (Sr (word_at m sp) (sp + 2) a f (rBC x) (rDE x) (rHL x) x' (mkCtl i im true true false) j) m []) ->
  (bitn (m 0x2005) 1 = false -> Cf f = true -> forall a f j, Cf f = true ->
     P (Hr 0x1C2 sp a f b2 d2 0x2005 x (mkCtl i im true true false) j) m []) ->
  G P (Sr 0x1C3 sp a f b2 d2 0x2005 x (mkCtl i im i1 i2 e) j) m [].
Proof.
  intros K1 K2 K3. do 2 istep. apply peek_1B6; try assumption; [left; reflexivity|..].
  - intros B f2 h2 jB Z2. apply ret_any; [reflexivity|lia|exact B1|exact B2|]. intros jC. apply K1; try reflexivity; assumption.
  - intros B CF2 f2 h2 jB Z2. apply ret_any; [reflexivity|lia|exact B1|exact B2|]. intros jC. apply K2; try reflexivity; assumption.
  - intros B CF2 f2 jB C2. apply g_now. apply K3; assumption.
Qed.
Lemma flush_28 (j : junk3 T) :
  (bitn (m 0x2005) 2 = false -> forall a f x' j, rAF x' = rAF x -> rIX x' = rIX x -> rIY x' = rIY x ->
     P (Sr (word_at m sp) (sp + 2) a f bc de hl x' (mkCtl i im true true false) j) m []) ->
  (bitn (m 0x2005) 2 = true -> forall a f x' j, rAF x' = rAF x -> rIX x' = rIX x -> rIY x' = rIY x ->
     P (Hr 0x1EC sp a f bc de hl x' (mkCtl i im true true false) j) m []) ->
  G P (Sr 0x28 sp 8 f bc de hl x (mkCtl i im i1 i2 e) j) m [].
Proof.
  intros K1 K2. apply (rst28 P 8 0x1E2); [cbn; tauto|]. intros f1 jA CF. do 2 istep. apply flush_1E4; try assumption; [left; reflexivity|..].
  - intros B a2 f2 jB. apply g_now. rewrite word_of_at. apply K1; try reflexivity; assumption.
  - intros B a2 f2 jB. apply g_now. apply K2; try reflexivity; assumption.
Qed.
Lemma flush_1ED a (j : junk3 T) :
  (bitn (m 0x2005) 2 = false -> forall a f j, P (Sr (word_at m sp) (sp + 2) a f bc de hl x (mkCtl i im true true false) j) m []) ->
  (bitn (m 0x2005) 2 = true -> forall a f j, P (Hr 0x1EC sp a f bc de hl x (mkCtl i im true true false) j) m []) ->
  G P (Sr 0x1ED sp a f bc de hl x (mkCtl i im i1 i2 e) j) m [].
Proof.
  intros K1 K2. do 2 istep. apply flush_1E4; try assumption; [left; reflexivity|..].
  - intros B a2 f2 jB. apply g_now. rewrite word_of_at. apply K1; try reflexivity; assumption.
  - intros B a2 f2 jB. apply g_now. apply K2; try reflexivity; assumption.
Qed.
Lemma wait_28 (j : junk3 T) : (forall f bc' de' j, P (Hr 0x19C sp (m 0x2000) f bc' de' 0x2000 (swapped x bc de hl) (mkCtl i im true true false) j) m []) ->
  G P (Sr 0x28 sp 0 f bc de hl x (mkCtl i im i1 i2 e) j) m [].
Proof. intros K. apply (rst28 P 0 0x196); [cbn; tauto|]. intros f1 jA CF. do 2 istep. apply wait_19A; [exact C|left; reflexivity|]. intros jB. apply g_now. apply K. Qed.
Lemma wait_19D a b2 d2 (j : junk3 T) : 0 <= a < 256 -> 0 <= rBC x < 65536 ->
  (m 0x2000 = a -> forall f j, P (Hr 0x19C sp a f b2 d2 0x2000 x (mkCtl i im true true false) j) m []) ->
  (m 0x2000 <> a -> rBC x = 1 -> forall a f x' j, rAF x' = rAF x -> rIX x' = rIX x -> rIY x' = rIY x -> P (Sr (word_at m sp) (sp + 2) a f 0 (rDE x) (rHL x) x' (mkCtl i im true true false) j) m []) ->
  (m 0x2000 <> a -> rBC x <> 1 -> forall f j, P (Hr 0x19C sp (m 0x2000) f b2 d2 0x2000 (mkRest (rAF x) ((rBC x - 1) mod 65536) (rDE x) (rHL x) (rIX x) (rIY x)) (mkCtl i im true true false) j) m []) ->
  G P (Sr 0x19D sp a f b2 d2 0x2000 x (mkCtl i im i1 i2 e) j) m [].
Proof.
  intros A0 X K1 K2 K3. istep. apply wait_19E; try assumption; [left; reflexivity|..].
  - intros E f2 jB. apply g_now. apply K1. exact E.
  - intros E E1 a2 f2 jB. apply ret_any; [reflexivity|lia|exact B1|exact B2|]. intros jC. apply K2; try reflexivity; assumption.
  - intros E E1 f2 jB. apply g_now. apply K3; assumption.
Qed.
Lemma time_28 (j : junk3 T) : 
  (bitn (m 0x2005) 1 = true -> forall a f x' j, Zf f = false -> rAF x' = rAF x -> rIX x' = rIX x -> rIY x' = rIY x -> P (Sr (word_at m sp) (sp + 2) a f bc de hl x' (mkCtl i im true true false) j) m []) ->
  (bitn (m 0x2005) 1 = false -> forall f bc' de' j, P (Hr 0x1D3 sp (m 0x2000) f bc' de' 0x2000 (swapped x bc de hl) (mkCtl i im true true false) j) m []) ->
  G P (Sr 0x28 sp 6 f bc de hl x (mkCtl i im i1 i2 e) j) m [].
Proof.
  intros K1 K2. apply (rst28 P 6 0x1C6); [cbn; tauto|]. intros f1 jA CF. do 2 istep. apply time_1CA; try assumption; [left; reflexivity|..].
  - intros B a2 f2 jB Z2. apply ret_any; [reflexivity|lia|exact B1|exact B2|]. intros jC. apply K1; try reflexivity; assumption.
  - intros B f2 jB. apply g_now. apply K2; assumption.
Qed.
Lemma time_1D4 a b2 d2 (j : junk3 T) : 0 <= a < 256 -> 0 <= rBC x < 65536 ->
  (forall b x1, m 0x2000 = a /\ b = rBC x /\ x1 = x \/ m 0x2000 <> a /\ rBC x <> 1 /\ b = (rBC x - 1) mod 65536 /\ x1 = mkRest (rAF x) b (rDE x) (rHL x) (rIX x) (rIY x) ->
    (bitn (m 0x2005) 1 = true -> forall a f x' j, Zf f = false -> rAF x' = rAF x -> rIX x' = rIX x -> rIY x' = rIY x -> P (Sr (word_at m sp) (sp + 2) a f b (rDE x) (rHL x) x' (mkCtl i im true true false) j) m []) /\
    (bitn (m 0x2005) 1 = false -> forall f j, P (Hr 0x1D3 sp (m 0x2000) f b2 d2 0x2000 x1 (mkCtl i im true true false) j) m [])) ->
  (m 0x2000 <> a -> rBC x = 1 -> forall a f x' j, Zf f = true -> rAF x' = rAF x -> rIX x' = rIX x -> rIY x' = rIY x -> P (Sr (word_at m sp) (sp + 2) a f 0 (rDE x) (rHL x) x' (mkCtl i im true true false) j) m []) ->
  G P (Sr 0x1D4 sp a f b2 d2 0x2000 x (mkCtl i im i1 i2 e) j) m [].
Proof.
  intros A0 X K1 K2. istep. apply time_1D5; try assumption; [left; reflexivity|..].
  - intros E f2 jB. destruct (K1 (rBC x) x) as (K3 & K4); [left; auto|]. apply time_1CA; try assumption; [left; reflexivity|..].
    + intros B a3 f3 jC Z3. apply ret_any; [reflexivity|lia|exact B1|exact B2|]. intros jD. apply K3; try reflexivity; assumption.
    + intros B f3 jC. apply g_now. apply K4; assumption.
  - intros E E1 a2 f2 jB Z2. apply ret_any; [reflexivity|lia|exact B1|exact B2|]. intros jC. apply K2; try reflexivity; assumption.
  - intros E E1 a2 f2 jB. destruct (K1 ((rBC x - 1) mod 65536) (mkRest (rAF x) ((rBC x - 1) mod 65536) (rDE x) (rHL x) (rIX x) (rIY x))) as (K3 & K4); [right; auto|]. apply time_1CA; try assumption; [left; reflexivity|..].
    + intros B a3 f3 jC Z3. apply ret_any; [reflexivity|lia|exact B1|exact B2|]. intros jD. apply K3; try reflexivity; assumption.
    + intros B f3 jC. apply g_now. apply K4; assumption.
Qed.
Lemma move_28 (j : junk3 T) : 0x20 <= hi hl -> 256 * hi hl + 12 <= top -> (256 * hi hl + 12 <= sp \/ sp + 1 < 256 * hi hl) ->
  (forall a f bc' de' hl' x' j, rAF x' = rAF x -> rIX x' = rIX x -> rIY x' = rIY x -> P (Sr (word_at m sp) (sp + 2) a f bc' de' hl' x' (mkCtl (hi hl) im i1 i2 false) j) (copied 12 m (256 * hi hl) 0x100) []) ->
  G P (Sr 0x28 sp 24 f bc de hl x (mkCtl i im i1 i2 e) j) m [].
Proof.
  intros H1 H2 H3 K. apply (rst28 P 24 0x2B2); [cbn; tauto|]. intros f1 jA CF. istep. apply move_2B2; try assumption; [left; reflexivity|].
  intros a2 f2 bc2 de2 hl2 x2 jB E1 E2 E3. assert (CC := codeR_copied 12 m (256 * hi hl) 0x100 C ltac:(lia) ltac:(lia)).
  assert (W : word_at (copied 12 m (256 * hi hl) 0x100) sp = word_at m sp).
  { unfold word_at. rewrite !copied_at by lia. replace ((256 * hi hl <=? sp) && (sp <? 256 * hi hl + Z.of_nat 12)) with false by lia.
    replace ((256 * hi hl <=? sp + 1) && (sp + 1 <? 256 * hi hl + Z.of_nat 12)) with false by lia. reflexivity. }
  set (mc := copied 12 _ _ _) in *. clearbody mc. istep. apply g_now. replace (word_of _ _) with (word_at m sp) by (rewrite <- W; unfold word_at, word_of; lia).
  apply K; assumption.
Qed.
End Open.
Variable a0 : arch T.
Hypothesis (A : 0 <= aA a0 < 256) (PX : aPX a0 = None) (NH : aHALT a0 = false) (S1 : 0x4000 <= aSP a0) (S2 : aSP a0 + 2 < 0x10000)
  (BC : 0 <= aBC a0 < 65536) (BC' : 0 <= aBC' a0 < 65536) (HL : 0 <= aHL a0 < 65536).
Notation goes P := (goes (WB:=unit) (RB:=unit) ch false top P a0 m []).
Notation alone P := (RomHoare.goes (WB:=unit) (RB:=unit) ch true top P a0 m []).
Lemma frames_is a f x' j : rAF x' = aAF' a0 -> rIX x' = aIX a0 -> rIY x' = aIY a0 ->
  frames_post a0 m (Sr (word_at m (aSP a0)) (aSP a0 + 2) a f (aBC a0) (word_of (m 0x2001) (m 0x2000)) (word_of (m 0x2003) (m 0x2002)) x' (mkCtl (aI a0) (aIM a0) true true false) j) m [].
Proof.
  intros E1 E2 E3. split; [exact still_refl|]. split; [|reflexivity].
  assert (B0 := Y 0x2000 ltac:(lia)). assert (B1 := Y 0x2001 ltac:(lia)). assert (B2 := Y 0x2002 ltac:(lia)). assert (B3 := Y 0x2003 ltac:(lia)).
  constructor; try reflexivity; try assumption; cbn [aDE aHL Sr]; unfold ticks_of, word_of.
  - replace (_ + _ + _ + _) with (m 0x2000 + 2 ^ 8 * m 0x2001 + (m 0x2002 + 2 ^ 8 * m 0x2003) * 2 ^ 16) by lia. rewrite Z.mod_add, Z.mod_small by lia. lia.
  - replace (_ + _ + _ + _) with (m 0x2000 + 2 ^ 8 * m 0x2001 + (m 0x2002 + 2 ^ 8 * m 0x2003) * 2 ^ 16) by lia. rewrite Z.div_add, Z.div_small by lia. lia.
Qed.
Lemma frames_alone : aPC a0 = 0x2C3 -> aIFF1 a0 = false -> alone (frames_post a0 m).
Proof.
  intros PC I1. set (P := frames_post a0 m). rewrite (state_is a0 PX), NH, PC. unfold ctl_of. apply frames_2C3; [exact C|right; exact I1|exact S1|exact S2|]. intros j. apply g_now.
  rewrite word_of_at. apply frames_is; reflexivity.
Qed.
Ltac is_a0 PC := rewrite (state_is a0 PX), NH, PC; unfold ctl_of.
Lemma frames_goes : aPC a0 = 0x28 -> aA a0 = 26 -> goes (frames_post a0 m).
Proof.
  intros PC EA. set (P := frames_post a0 m). is_a0 PC. rewrite EA. apply frames_28; try assumption. intros. apply frames_is; assumption.
Qed.
Ltac fin := split; [exact still_refl|]; rewrite ?in_have, ?out_waiting;
  repeat match goal with H : bitn _ _ = _ |- _ => rewrite H end.
Ltac ret_ok := split; [constructor; first [reflexivity | assumption]|reflexivity].
Lemma peek_goes : aPC a0 = 0x28 -> aA a0 = 4 -> goes (fun a' m' o => peek_post a0 m a' m' o (returns a0 m a') (aBC a0) (aDE a0) (aHL a0)).
Proof.
  intros PC EA. set (P := fun a' m' o => _ : Prop). is_a0 PC. rewrite EA. apply peek_28; try assumption; unfold P.
  - intros. fin. split; [ret_ok|]. split; [assumption|reflexivity].
  - intros B CF. intros. fin. replace (carry a0) with false by (symmetry; exact CF). split; [ret_ok|assumption].
  - intros B CF. intros. fin. replace (carry a0) with true by (symmetry; exact CF). split; [do 2 eexists; constructor; reflexivity|]. split; [reflexivity|]. split; [assumption|]. split; [reflexivity|]. split; reflexivity.
Qed.
Lemma peek_again_goes : aPC a0 = 0x1C3 -> aHL a0 = 0x2005 -> goes (fun a' m' o => peek_post a0 m a' m' o (returns a0 m a') (aBC' a0) (aDE' a0) (aHL' a0)).
Proof.
  intros PC EA. set (P := fun a' m' o => _ : Prop). is_a0 PC. rewrite EA. apply peek_1C3; try assumption; unfold P.
  - intros. fin. split; [ret_ok|]. split; [assumption|reflexivity].
  - intros B CF. intros. fin. replace (carry a0) with false by (symmetry; exact CF). split; [ret_ok|assumption].
  - intros B CF. intros. fin. replace (carry a0) with true by (symmetry; exact CF). split; [do 2 eexists; constructor; reflexivity|]. split; [reflexivity|]. split; [assumption|]. split; [reflexivity|]. split; reflexivity.
Qed.
Lemma flush_goes : aPC a0 = 0x28 -> aA a0 = 8 -> goes (flush_post a0 m).
Proof.
  intros PC EA. set (P := flush_post a0 m). is_a0 PC. rewrite EA. apply flush_28; try assumption; unfold P; intros; fin; ret_ok.
Qed.
Lemma flush_again_goes : aPC a0 = 0x1ED -> goes (flush_post a0 m).
Proof.
  intros PC. set (P := flush_post a0 m). is_a0 PC. apply flush_1ED; try assumption; unfold P; intros; fin; ret_ok.
Qed.
Ltac wait_ok := split; [do 2 eexists; constructor; reflexivity|]; split; [reflexivity|]; split; [first [reflexivity | symmetry; assumption]|]; split; [reflexivity|]; split; reflexivity.
Lemma wait_goes : aPC a0 = 0x28 -> aA a0 = 0 -> goes (fun a' m' o => wait_post a0 m a' m' o (aBC a0) (aDE a0) (aHL a0)).
Proof.
  intros PC EA. set (P := fun a' m' o => _ : Prop). is_a0 PC. rewrite EA. apply wait_28; try assumption; unfold P. intros; fin. wait_ok.
Qed.
Lemma wait_again_goes : aPC a0 = 0x19D -> aHL a0 = 0x2000 -> goes (fun a' m' o => wait_round a0 m a' m' o (returns a0 m a')).
Proof.
  intros PC EA. set (P := fun a' m' o => _ : Prop). is_a0 PC. rewrite EA. apply wait_19D; try assumption; unfold P; cbn [rBC rest_of].
  - intros E. intros. fin. rewrite E, Z.eqb_refl. wait_ok.
  - intros E EB. intros. fin. replace (m 0x2000 =? aA a0) with false by lia. rewrite EB. change (1 =? 1) with true. cbv iota. ret_ok.
  - intros E EB. intros. fin. replace (m 0x2000 =? aA a0) with false by lia. replace (aBC' a0 =? 1) with false by lia. wait_ok.
Qed.
Lemma timeout_goes : aPC a0 = 0x28 -> aA a0 = 6 -> goes (fun a' m' o => timeout_post a0 m a' m' o (returns a0 m a') (aBC a0) (aDE a0) (aHL a0)).
Proof.
  intros PC EA. set (P := fun a' m' o => _ : Prop). is_a0 PC. rewrite EA. apply time_28; try assumption; unfold P, timeout_post, char_or_wait; intros; fin.
  - split; [ret_ok|assumption].
  - wait_ok.
Qed.
Lemma timeout_again_goes : aPC a0 = 0x1D4 -> aHL a0 = 0x2000 -> goes (fun a' m' o => timeout_round a0 m a' m' o (returns a0 m a')).
Proof.
  intros PC EA. set (P := fun a' m' o => _ : Prop). is_a0 PC. rewrite EA. apply time_1D4; try assumption; unfold P, timeout_round, char_or_wait; cbn [rBC rest_of].
  - intros b x1 [(E & -> & ->)|(E & EB & -> & ->)].
    + rewrite E, Z.eqb_refl. split; intros; fin; [split; [ret_ok|assumption]|rewrite <- E; wait_ok].
    + replace (m 0x2000 =? aA a0) with false by lia. replace (aBC' a0 =? 1) with false by lia. split; intros; fin; [split; [ret_ok|assumption]|wait_ok].
  - intros E EB. intros. fin. replace (m 0x2000 =? aA a0) with false by lia. rewrite EB. change (1 =? 1) with true. cbv iota. split; [ret_ok|assumption].
Qed.
Lemma move_goes : aPC a0 = 0x28 -> aA a0 = 24 -> let h := aHL a0 / 256 in 0x20 <= h -> 256 * h + 12 <= top -> (256 * h + 12 <= aSP a0 \/ aSP a0 + 1 < 256 * h) -> goes (move_post a0 m).
Proof.
  intros PC EA h H1 H2 H3. set (P := move_post a0 m). is_a0 PC. rewrite EA. assert (EH : hi (aHL a0) = h) by reflexivity. apply move_28; try assumption; rewrite ?EH; try assumption. clearbody h. unfold P, move_post. intros.
  fold (hi (aHL a0)). rewrite EH. split; [reflexivity|]. split; [|split].
  - intros k K. rewrite copied_at by lia. replace ((256 * h <=? 256 * h + k) && (256 * h + k <? 256 * h + Z.of_nat 12)) with true by lia. f_equal. lia.
  - intros y _ N. rewrite copied_at by lia. replace ((256 * h <=? y) && (y <? 256 * h + Z.of_nat 12)) with false by lia. reflexivity.
  - repeat (split; [first [reflexivity | assumption]|]). reflexivity.
Qed.
End Start.
