(** input_prune of the kernel, run on the specification. *)
From Coq Require Import ZArith Bool List Lia.
From Verif Require Import Base Parse Cpu Flavours Range Clock RalMemory RalBus SpecRal SpecAlu SpecState SpecIsa AluProofs IsaLink IsaRun Trace Asm RomImage SpecRom RomHoare RomAsm RomIo RomRun SpecLib RomLib RomLib2 RomLib3.
Import ListNotations.
Open Scope Z_scope.

Section Prune.
Context {T : Type}.
Variable ch : SpecIsa.chip T.
Variable top : Z.
Hypothesis HT : 0x4000 <= top <= 0x10000.
Variable P : arch T -> mem -> list io -> Prop.
Notation goes := (goes (WB:=unit) (RB:=unit) ch false top P).
Notation swapped x bc de hl := (mkRest (rAF x) bc de hl (rIX x) (rIY x)).
Section Round.
Variables (sp bc de hl i : Z) (im : InterruptMode) (x : rest).
Hypothesis (B1 : 0x4004 <= sp <= top) (B2 : sp + 2 < 0x10000).
Definition near (m m2 : mem) : Prop := codeR m2 /\ 0 <= m2 0x2004 < 256 /\ same_but (fun y => y = 0x2004 \/ y = 0x2005 \/ sp - 4 <= y < sp) m m2.
Lemma near_word m m2 : near m m2 -> word_at m2 sp = word_at m sp.
Proof. intros (_ & _ & E). unfold word_at. rewrite !E by lia. reflexivity. Qed.
Lemma near_trans m m1 m2 : near m m1 -> near m1 m2 -> near m m2.
Proof. intros (C1 & Y1 & E1) (C2 & Y2 & E2). split; [exact C2|]. split; [exact Y2|]. intros y H N. rewrite E2, E1 by assumption. reflexivity. Qed.
Lemma prune_round a f i1 i2 e (j : junk3 T) m o : codeR m -> 0 <= m 0x2004 < 256 -> (bitn (m 0x2005) 0 = true -> bytesR m) -> 0 <= a < 256 ->
  (bitn (m 0x2005) 1 = false -> forall f2 j2 m2, near m m2 -> m2 0x2005 = m 0x2005 -> Zf f2 = true ->
     goes (Sr (word_at m sp) (sp + 2) a f2 bc de hl (swapped x (rBC x) (rDE x) 0x2005) (mkCtl i im true true false) j2) m2 o) ->
  (bitn (m 0x2005) 1 = true -> bitn (m 0x2005) 0 = false -> forall f2 j2 m2, near m m2 -> m2 0x2005 = s_res 1 (m 0x2005) ->
     goes (Sr 0x1AB sp (m 0x2004) f2 bc de hl (swapped x (rBC x) (rDE x) 0x2004) (mkCtl i im true true false) j2) m2 o) ->
  (bitn (m 0x2005) 1 = true -> bitn (m 0x2005) 0 = true -> forall v f2 j2 m2, 0 <= v < 256 -> near m m2 -> m2 0x2005 = s_res 0 (m 0x2005) ->
     goes (Sr 0x1AB sp (m 0x2004) f2 bc de hl (swapped x (rBC x) (rDE x) 0x2004) (mkCtl i im true true false) j2) m2 (o ++ [IIn (word_of (m 0x2004) 8) v])) ->
  goes (Sr 0x1AC sp a f bc de hl x (mkCtl i im i1 i2 e) j) m o.
Proof.
  intros C Y0 Y A K1 K2 K3. istep. pose proof (Cf_or a a) as CF. rewrite or_lor, Z.lor_diag by exact A. set (f1 := snd _) in *. clearbody f1. istep.
  setm m1 E1 C1.
  assert (Y1 : bytesR m -> bytesR m1) by (intros YM y Hy; at_mem E1; try lia; apply YM; exact Hy).
  assert (F1 : m1 0x2005 = m 0x2005) by (at_mem E1; reflexivity). assert (F2 : m1 0x2004 = m 0x2004) by (at_mem E1; reflexivity).
  assert (R : forall m3 f3 i1 i2 j o x' a', codeR m3 -> m3 (sp - 2) = m1 (sp - 2) -> m3 (sp - 1) = m1 (sp - 1) ->
    (forall j, goes (Sr 0x1AE sp a' f3 bc de hl x' (mkCtl i im i1 i2 false) j) m3 o) -> goes (Sr 0x14E (sp - 2) a' f3 bc de hl x' (mkCtl i im i1 i2 false) j) m3 o).
  { intros m3 f3 i3 i4 jx o3 x' a' C3 U1 U2 K. apply ret_from; [left; reflexivity|exact C3|right; reflexivity|lia|lia|]. intros jy.
    replace (sp - 2 + 1) with (sp - 1) by lia. replace (sp - 2 + 2) with sp by lia. rewrite w16_id by lia. rewrite U1, U2.
    replace (word_of (m1 (sp - 1)) (m1 (sp - 2))) with 0x1AE; [apply K|]. rewrite !E1. rewrite Z.eqb_refl. destruct (Z.eqb_spec (sp - 1) (sp - 2)); [lia|]. rewrite Z.eqb_refl. reflexivity. }
  assert (N1 : near m m1). { split; [exact C1|]. split; [lia|]. intros y Hy N. rewrite E1. destruct (Z.eqb_spec y (sp - 2)); [lia|]. destruct (Z.eqb_spec y (sp - 1)); [lia|reflexivity]. }
  apply get_start; [left; reflexivity|exact C1|]. intros jA eA. rewrite <- F1 in *. rewrite <- F2 in *. destruct (bitn (m1 0x2005) 1) eqn:B.
  - destruct (bitn (m1 0x2005) 0) eqn:B0.
    + apply get_more; [exact HT|left; reflexivity|exact C1|apply Y1, Y; reflexivity|lia|lia|exact B|exact B0|]. cbn [rBC rDE rHL rAF rIX rIY]. intros jB f2 m2 v V Z2 C2 U2 G2 V2.
      apply R; [exact C2|apply U2; lia|apply U2; lia|]. intros jC. do 2 istep. apply K3; try assumption; try reflexivity.
      apply (near_trans _ _ _ N1). split; [exact C2|]. split; [lia|]. intros y Hy N. apply U2; lia.
    + apply get_last; try assumption; [left; reflexivity|]. cbn [rBC rDE rHL rAF rIX rIY]. intros jB f2 Z2.
      assert (C2 : codeR (mupd m1 0x2005 (s_res 1 (m1 0x2005)))) by (apply codeR_upd; [exact C1|lia]).
      assert (G2 : mupd m1 0x2005 (s_res 1 (m1 0x2005)) 0x2005 = s_res 1 (m1 0x2005)) by reflexivity.
      assert (U2 : forall y, y <> 0x2005 -> mupd m1 0x2005 (s_res 1 (m1 0x2005)) y = m1 y) by (intros y N; unfold mupd; destruct (Z.eqb_spec y 0x2005); [contradiction|reflexivity]).
      set (m2 := mupd m1 _ _) in *. clearbody m2. apply R; [exact C2|apply U2; lia|apply U2; lia|]. intros jC. do 2 istep. apply K2; try assumption; try reflexivity.
      apply (near_trans _ _ _ N1). split; [exact C2|]. split; [rewrite U2; lia|]. intros y Hy N. apply U2; lia.
  - apply get_none; try assumption; [left; reflexivity|]. cbn [rBC rDE rHL rAF rIX rIY]. intros jB f2 Z2. apply R; [exact C1|reflexivity|reflexivity|]. intros jC. istep.
    rewrite <- (near_word _ _ N1) in *. replace (word_of (m1 (sp + 1)) (m1 sp)) with (word_at m1 sp) by (unfold word_at, word_of; lia).
    apply K1; try assumption; reflexivity.
Qed.
End Round.
Lemma res_bits k v n : 0 <= n < 8 -> bitn (s_res k v) n = bitn v n && negb (n =? k).
Proof. apply bitn_res. Qed.
Lemma prune_28 sp f bc de hl x i im i1 i2 e (j : junk3 T) m : codeR m -> bytesR m -> 0x4004 <= sp <= top -> sp + 2 < 0x10000 -> (bitn (m 0x2005) 1 = false -> bitn (m 0x2005) 0 = false) ->
  (forall m' f2 j o x' a bc' de' hl', near sp m m' -> bitn (m' 0x2005) 0 = false -> bitn (m' 0x2005) 1 = false -> Zf f2 = true -> rAF x' = rAF x -> rIX x' = rIX x -> rIY x' = rIY x ->
     (if bitn (m 0x2005) 1 then if bitn (m 0x2005) 0 then (exists w, o = [IIn (word_of (m 0x2004) 8) w]) /\ bc' = bc /\ de' = de /\ hl' = 0x2004 /\ rBC x' = rBC x /\ rDE x' = rDE x /\ rHL x' = 0x2005
                                else o = [] /\ bc' = rBC x /\ de' = rDE x /\ hl' = 0x2004 /\ rBC x' = bc /\ rDE x' = de /\ rHL x' = 0x2005
      else o = [] /\ bc' = bc /\ de' = de /\ hl' = hl) ->
     P (Sr (word_at m sp) (sp + 2) a f2 bc' de' hl' x' (mkCtl i im true true false) j) m' o) ->
  goes (Sr 0x28 sp 2 f bc de hl x (mkCtl i im i1 i2 e) j) m [].
Proof.
  intros C Y B1 B2 W0 K. apply (rst28 ch top m C P 2 0x1AB); [cbn; tauto|]. intros f1 jA _. istep.
  assert (Y4 := Y 0x2004 ltac:(lia)). apply prune_round; try assumption; try lia; [intros _; exact Y|..]; cbn [rAF rBC rDE rHL rIX rIY].
  - intros E1 f2 jV m2 N2 G2 Z2. apply g_now. rewrite E1 in K. apply K; try reflexivity; try assumption; try (rewrite G2; auto); auto.
  - intros E1 E0 f2 jV m2 N2 G2. rewrite E1, E0 in K. destruct (N2) as (C2 & Y2 & _). istep.
    assert (G1 : bitn (m2 0x2005) 1 = false) by (rewrite G2, res_bits by lia; apply andb_false_r). assert (G0 : bitn (m2 0x2005) 0 = false) by (rewrite G2, res_bits, E0 by lia; reflexivity).
    apply prune_round; try assumption; try congruence; cbn [rAF rBC rDE rHL rIX rIY].
    intros _ f3 jR m3 N3 G3 Z3. apply g_now. rewrite (near_word sp B1 B2 _ _ N2). apply K; try reflexivity; try assumption; [exact (near_trans _ _ _ _ N2 N3)|rewrite G3; exact G0|rewrite G3; exact G1|]. auto 9.
  - intros E1 E0 v f2 jV m2 V N2 G2. rewrite E1, E0 in K. destruct (N2) as (C2 & Y2 & _). istep.
    assert (G1 : bitn (m2 0x2005) 1 = true) by (rewrite G2, res_bits, E1 by lia; reflexivity). assert (G0 : bitn (m2 0x2005) 0 = false) by (rewrite G2, res_bits by lia; apply andb_false_r).
    apply prune_round; try assumption; try congruence; cbn [rAF rBC rDE rHL rIX rIY].
    intros _ _ f3 jR m3 N3 G3. destruct (N3) as (C3 & Y3 & _). istep.
    assert (H1 : bitn (m3 0x2005) 1 = false) by (rewrite G3, res_bits by lia; apply andb_false_r). assert (H0 : bitn (m3 0x2005) 0 = false) by (rewrite G3, res_bits, G0 by lia; reflexivity).
    apply prune_round; try assumption; try congruence; cbn [rAF rBC rDE rHL rIX rIY].
    intros _ f4 jU m4 N4 G4 Z4. apply g_now. rewrite (near_word sp B1 B2 _ _ (near_trans _ _ _ _ N2 N3)). apply K; try reflexivity; try assumption; [exact (near_trans _ _ _ _ (near_trans _ _ _ _ N2 N3) N4)|rewrite G4; exact H0|rewrite G4; exact H1|].
    split; [exists v; reflexivity|]. auto 9.
Qed.
End Prune.
Section PruneRun.
Context {T : Type}.
Variable ch : SpecIsa.chip T.
Variable top : Z.
Hypothesis HT : 0x4000 <= top <= 0x10000.
Variables (m : mem) (a0 : arch T).
Hypothesis (C : codeR m) (Y : bytesR m) (PX : aPX a0 = None) (NH : aHALT a0 = false) (S1 : 0x4004 <= aSP a0 <= top) (S2 : aSP a0 + 2 < 0x10000).
Lemma prune_goes : aPC a0 = 0x28 -> aA a0 = 2 -> (have (in_of m) = None -> more (in_of m) = false) -> goes (WB:=unit) (RB:=unit) ch false top (prune_post a0 m) a0 m [].
Proof.
  intros PC EA HM. set (P := prune_post a0 m). rewrite (state_is a0 PX), NH, PC. unfold ctl_of. rewrite EA.
  change (have (in_of m)) with (if bitn (m 0x2005) 1 then Some (m 0x2004) else None) in HM. change (more (in_of m)) with (bitn (m 0x2005) 0) in HM.
  apply prune_28; try assumption; [intros B; rewrite B in HM; exact (HM eq_refl)|].
  intros m' f2 j o x' a bc' de' hl' (_ & _ & SB) B0 B1 ZF E1 E2 E3 K. unfold P, prune_post.
  change (have (in_of m)) with (if bitn (m 0x2005) 1 then Some (m 0x2004) else None). change (more (in_of m)) with (bitn (m 0x2005) 0).
  split; [unfold in_of, bit_at; unfold bitn in B0, B1; rewrite B0, B1; reflexivity|]. split; [exact ZF|]. split; [exact SB|].
  destruct (bitn (m 0x2005) 1); [destruct (bitn (m 0x2005) 0)|].
  - destruct K as ((w & ->) & -> & -> & -> & R1 & R2 & R3). split; [exists w; unfold word_of; reflexivity|]. split; [split; [constructor; first [reflexivity | assumption]|reflexivity]|]. split; [exact R1|]. split; [exact R2|exact R3].
  - destruct K as (-> & -> & -> & -> & R1 & R2 & R3). split; [reflexivity|]. split; [split; [constructor; first [reflexivity | assumption]|reflexivity]|]. split; [exact R1|]. split; [exact R2|exact R3].
  - destruct K as (-> & -> & -> & ->). split; [reflexivity|]. split; [constructor; first [reflexivity | assumption]|reflexivity].
Qed.
End PruneRun.
