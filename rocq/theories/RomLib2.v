(** More library routines of the kernel, run on the specification. *)
From Coq Require Import ZArith Bool List Lia.
From Verif Require Import Base Parse Cpu Flavours Range Clock RalMemory RalBus SpecRal SpecAlu SpecState SpecIsa AluProofs IsaLink IsaRun Trace Asm RomImage SpecRom RomHoare RomAsm RomIo RomRun SpecLib RomLib.
Import ListNotations.
Open Scope Z_scope.

(** Instructions with the prefix EDh. *)
Ltac istepx := istep; code_rw; wnum; words; acc_ok; wnum; words; try refold1.

Lemma and_one v k : k = 1 \/ k = 2 -> Zf (snd (s_and v (2 ^ k))) = negb (bitn v k).
Proof.
  intros K. unfold s_and, s_logic. cbn [snd]. rewrite Zf_szxy. unfold of_bits.
  destruct K; subst k; cbn; rewrite !andb_false_r, andb_true_r; match goal with |- context [bz ?b] => lazymatch b with context [v] => destruct b; reflexivity end end.
Qed.
Lemma dec_or b : 0 <= b < 65536 -> let b1 := w16 (b - 1) in Zf (snd (s_or (lo b1) (hi b1))) = (b =? 1).
Proof.
  intros B b1. assert (R : 0 <= b1 < 65536) by (apply Z.mod_pos_bound; lia). pose proof (lo_range b1). pose proof (hi_range b1 R). rewrite Zf_or, or_lor by assumption.
  destruct (Z.eqb_spec b 1) as [->|N].
  - reflexivity.
  - apply Z.eqb_neq. rewrite Z.lor_eq_0_iff. intros (L & H1). pose proof (word_hi_lo b1) as W. rewrite L, H1 in W. unfold word_of in W.
    unfold b1, w16 in W. Z.div_mod_to_equations. lia.
Qed.

Fixpoint copied (n : nat) (m : mem) (de hl : Z) : mem := match n with O => m | Datatypes.S n => copied n (mupd m de (m hl)) (de + 1) (hl + 1) end.
Lemma copied_at n : forall m de hl y, hl + Z.of_nat n <= de -> copied n m de hl y = if (de <=? y) && (y <? de + Z.of_nat n) then m (hl + (y - de)) else m y.
Proof.
  induction n as [|n IH]; intros m de hl y H; cbn [copied].
  - replace ((de <=? y) && (y <? de + Z.of_nat 0)) with false by lia. reflexivity.
  - rewrite IH by lia. destruct (Z.eqb_spec y de) as [->|N].
    + replace ((de + 1 <=? de) && (de <? de + 1 + Z.of_nat n)) with false by lia. replace ((de <=? de) && (de <? de + Z.of_nat (Datatypes.S n))) with true by lia.
      unfold mupd. rewrite Z.eqb_refl. f_equal. lia.
    + replace ((de + 1 <=? y) && (y <? de + 1 + Z.of_nat n)) with ((de <=? y) && (y <? de + Z.of_nat (Datatypes.S n))) by lia.
      destruct ((de <=? y) && (y <? de + Z.of_nat (Datatypes.S n))) eqn:E; unfold mupd; [destruct (Z.eqb_spec (hl + 1 + (y - (de + 1))) de); [lia|f_equal; lia]|destruct (Z.eqb_spec y de); [contradiction|reflexivity]].
Qed.
Lemma codeR_copied n m de hl : codeR m -> 0x2000 <= de -> hl + Z.of_nat n <= de -> codeR (copied n m de hl).
Proof. intros C D H y Y. rewrite copied_at by exact H. replace ((de <=? y) && (y <? de + Z.of_nat n)) with false by lia. apply C. exact Y. Qed.

Section Routines.
Context {T : Type}.
Variable ch : SpecIsa.chip T.
Variable q : bool.
Variable top : Z.
Hypothesis HT : 0x4000 <= top <= 0x10000.
Variable P : arch T -> mem -> list io -> Prop.
Notation swapped x bc de hl := (mkRest (rAF x) bc de hl (rIX x) (rIY x)).
Notation goes := (goes (WB:=unit) (RB:=unit) ch q top P).
(** get_frames_counter: from DI on there is no chance for an interrupt. *)
Lemma frames_2C3 sp a f bc de hl x i im i1 i2 e (j : junk3 T) m : codeR m -> (q = false \/ i1 = false) -> 0x4000 <= sp -> sp + 2 < 0x10000 ->
  (forall j, goes (Sr (word_of (m (sp + 1)) (m sp)) (sp + 2) a f bc (word_of (m 0x2001) (m 0x2000)) (word_of (m 0x2003) (m 0x2002)) x (mkCtl i im true true false) j) m []) ->
  goes (Sr 0x2C3 sp a f bc de hl x (mkCtl i im i1 i2 e) j) m [].
Proof. intros C Hq S1 S2 K. istepx. do 3 istep. apply K. Qed.
(** input_peek *)
Lemma peek_1B6 sp a f bc de x i im i1 i2 e (j : junk3 T) m : codeR m -> bytesR m -> (q = false \/ i1 = false) ->
  (bitn (m 0x2005) 1 = true -> forall f h j, Zf f = false -> goes (Sr 0x1BE sp (m 0x2004) f (rBC x) (rDE x) (rHL x) (swapped x bc de h) (mkCtl i im true true false) j) m []) ->
  (bitn (m 0x2005) 1 = false -> Cf f = false -> forall f h j, Zf f = true -> goes (Sr 0x1BE sp a f (rBC x) (rDE x) (rHL x) (swapped x bc de h) (mkCtl i im true true false) j) m []) ->
  (bitn (m 0x2005) 1 = false -> Cf f = true -> forall f j, Cf f = true -> goes (Hr 0x1C2 sp a f bc de 0x2005 x (mkCtl i im true true false) j) m []) ->
  goes (Sr 0x1B6 sp a f bc de 0x2005 x (mkCtl i im i1 i2 e) j) m [].
Proof.
  intros C Y Hq K1 K2 K3. destruct (bitn (m 0x2005) 1) eqn:B.
  - do 6 istep. apply K1; [reflexivity|]. rewrite Zf_bit, B. reflexivity.
  - destruct (Cf f) eqn:CF.
    + do 5 istep. apply K3; try reflexivity. rewrite Cf_bit. exact CF.
    + do 5 istep. apply K2; try reflexivity. rewrite Zf_bit, B. reflexivity.
Qed.
(** output_flush *)
Lemma flush_1E4 sp a f bc de hl x i im i1 i2 e (j : junk3 T) m : codeR m -> bytesR m -> (q = false \/ i1 = false) -> 0x4000 <= sp -> sp + 2 < 0x10000 ->
  (bitn (m 0x2005) 2 = false -> forall a f j, goes (Sr (word_of (m (sp + 1)) (m sp)) (sp + 2) a f bc de hl x (mkCtl i im true true false) j) m []) ->
  (bitn (m 0x2005) 2 = true -> forall a f j, goes (Hr 0x1EC sp a f bc de hl x (mkCtl i im true true false) j) m []) ->
  goes (Sr 0x1E4 sp a f bc de hl x (mkCtl i im i1 i2 e) j) m [].
Proof.
  intros C Y Hq S1 S2 K1 K2. do 2 istep. pose proof (and_one (m 0x2005) 2 ltac:(lia)) as ZF. change (2 ^ 2) with 4 in ZF.
  set (v := fst _) in *. set (f1 := snd _) in *. clearbody v f1. destruct (bitn (m 0x2005) 2) eqn:B; cbn [negb] in ZF.
  - do 3 istep. apply K2. reflexivity.
  - do 3 istep. apply K1. reflexivity.
Qed.
(** wait_ticks *)
Lemma wait_19A sp a f bc de x i im i1 i2 e (j : junk3 T) m : codeR m -> (q = false \/ i1 = false) ->
  (forall j, goes (Hr 0x19C sp (m 0x2000) f bc de 0x2000 x (mkCtl i im true true false) j) m []) ->
  goes (Sr 0x19A sp a f bc de 0x2000 x (mkCtl i im i1 i2 e) j) m [].
Proof. intros C Hq K. do 3 istep. apply K. Qed.
Lemma wait_19E sp a f bc de x i im i1 i2 e (j : junk3 T) m : codeR m -> bytesR m -> (q = false \/ i1 = false) -> 0 <= a < 256 ->
  0 <= rBC x < 65536 -> (m 0x2000 = a -> forall f j, goes (Hr 0x19C sp a f bc de 0x2000 x (mkCtl i im true true false) j) m []) ->
  (m 0x2000 <> a -> rBC x = 1 -> forall a f j, goes (Sr 0x1AA sp a f 0 (rDE x) (rHL x) (swapped x bc de 0x2000) (mkCtl i im true true false) j) m []) ->
  (m 0x2000 <> a -> rBC x <> 1 -> forall f j, goes (Hr 0x19C sp (m 0x2000) f bc de 0x2000 (mkRest (rAF x) ((rBC x - 1) mod 65536) (rDE x) (rHL x) (rIX x) (rIY x)) (mkCtl i im true true false) j) m []) ->
  goes (Sr 0x19E sp a f bc de 0x2000 x (mkCtl i im i1 i2 e) j) m [].
Proof.
  intros C Y Hq A BX K1 K2 K3. assert (B : 0 <= m 0x2000 < 256) by (apply Y; lia). istep. pose proof (Zf_cp a (m 0x2000) A B) as ZF.
  set (f1 := s_cp _ _) in *. clearbody f1. destruct (Z.eqb_spec a (m 0x2000)) as [E|E].
  - do 3 istep. apply K1. congruence.
  - do 5 istep. pose proof (dec_or (rBC x) BX) as ZF1. cbv zeta in ZF1. change ((rBC x - 1) mod 65536) with (w16 (rBC x - 1)) in K3. set (b1 := w16 (rBC x - 1)) in *.
    assert (B1 : rBC x = 1 -> b1 = 0) by (unfold b1; intros ->; reflexivity). clearbody b1.
    set (v := fst _) in *. set (f2 := snd _) in *. clearbody v f2. destruct (Z.eqb_spec (rBC x) 1) as [E1|E1].
    + do 4 istep. rewrite (B1 E1). apply K2; [congruence|exact E1].
    + do 2 istep. apply wait_19A; [exact C|assumption|]. intros j9. apply K3; [congruence|exact E1].
Qed.
(** input_wait_timeout *)
Lemma time_1CA sp a f bc de x i im i1 i2 e (j : junk3 T) m : codeR m -> bytesR m -> (q = false \/ i1 = false) ->
  (bitn (m 0x2005) 1 = true -> forall a f j, Zf f = false -> goes (Sr 0x1E1 sp a f (rBC x) (rDE x) (rHL x) (swapped x bc de 0x2000) (mkCtl i im true true false) j) m []) ->
  (bitn (m 0x2005) 1 = false -> forall f j, goes (Hr 0x1D3 sp (m 0x2000) f bc de 0x2000 x (mkCtl i im true true false) j) m []) ->
  goes (Sr 0x1CA sp a f bc de 0x2000 x (mkCtl i im i1 i2 e) j) m [].
Proof.
  intros C Y Hq K1 K2. do 2 istep. pose proof (and_one (m 0x2005) 1 ltac:(lia)) as ZF. change (2 ^ 1) with 2 in ZF.
  set (v := fst _) in *. set (f1 := snd _) in *. clearbody v f1. destruct (bitn (m 0x2005) 1) eqn:B; cbn [negb] in ZF.
  - do 3 istep. apply K1; [reflexivity|exact ZF].
  - do 4 istep. apply K2. reflexivity.
Qed.
Lemma time_1D5 sp a f bc de x i im i1 i2 e (j : junk3 T) m : codeR m -> bytesR m -> (q = false \/ i1 = false) -> 0 <= a < 256 -> 0 <= rBC x < 65536 ->
  (m 0x2000 = a -> forall f j, goes (Sr 0x1CA sp a f bc de 0x2000 x (mkCtl i im i1 i2 false) j) m []) ->
  (m 0x2000 <> a -> rBC x = 1 -> forall a f j, Zf f = true -> goes (Sr 0x1E1 sp a f 0 (rDE x) (rHL x) (swapped x bc de 0x2000) (mkCtl i im true true false) j) m []) ->
  (m 0x2000 <> a -> rBC x <> 1 -> forall a f j, goes (Sr 0x1CA sp a f bc de 0x2000 (mkRest (rAF x) ((rBC x - 1) mod 65536) (rDE x) (rHL x) (rIX x) (rIY x)) (mkCtl i im i1 i2 false) j) m []) ->
  goes (Sr 0x1D5 sp a f bc de 0x2000 x (mkCtl i im i1 i2 e) j) m [].
Proof.
  intros C Y Hq A BX K1 K2 K3. assert (B : 0 <= m 0x2000 < 256) by (apply Y; lia). istep. pose proof (Zf_cp a (m 0x2000) A B) as ZF.
  set (f1 := s_cp _ _) in *. clearbody f1. destruct (Z.eqb_spec a (m 0x2000)) as [E|E].
  - istep. apply K1. congruence.
  - do 5 istep. pose proof (dec_or (rBC x) BX) as ZF1. cbv zeta in ZF1. change ((rBC x - 1) mod 65536) with (w16 (rBC x - 1)) in K3. set (b1 := w16 (rBC x - 1)) in *.
    assert (B1 : rBC x = 1 -> b1 = 0) by (unfold b1; intros ->; reflexivity). clearbody b1.
    set (v := fst _) in *. set (f2 := snd _) in *. clearbody v f2. destruct (Z.eqb_spec (rBC x) 1) as [E1|E1].
    + do 4 istep. rewrite (B1 E1). apply K2; [congruence|exact E1|exact ZF1].
    + do 2 istep. apply K3; [congruence|exact E1].
Qed.
(** move_int_vectors: LDIR. *)
Lemma ldir n : forall sp a f bc de hl x i im i1 i2 e (j : junk3 T) m, codeR m -> bytesR m -> (q = false \/ i1 = false) -> bc = Z.of_nat (Datatypes.S n) -> bc < 65536 -> 0x2000 <= de -> de + bc <= top -> de + bc < 0x10000 -> 0 <= hl -> hl + bc <= 0x2000 ->
  (forall f j, goes (Sr 0x2BE sp a f 0 (de + bc) (hl + bc) x (mkCtl i im i1 i2 false) j) (copied (Datatypes.S n) m de hl) []) ->
  goes (Sr 0x2BC sp a f bc de hl x (mkCtl i im i1 i2 e) j) m [].
Proof.
  induction n as [|n IH]; intros sp a f bc de hl x i im i1 i2 e j m C Y Hq EB B D1 D2 D3 H1 H2 K.
  - assert (E1 : bc = 1) by lia. rewrite E1 in K. assert (YY := Y hl ltac:(lia)). istepx. replace (negb (bc - 1 =? 0)) with false by lia. lazy beta iota. cbn [fst]. refold1.
    replace (bc - 1) with 0 by lia. apply K.
  - assert (YY := Y hl ltac:(lia)). istepx. replace (negb (bc - 1 =? 0)) with true by lia. lazy beta iota. cbn [fst]. refold1. apply IH; try lia; try assumption.
    + apply codeR_upd; [exact C|lia].
    + apply bytesR_upd; assumption.
    + intros fA jA. replace (de + 1 + (bc - 1)) with (de + bc) by lia. replace (hl + 1 + (bc - 1)) with (hl + bc) by lia. apply K.
Qed.
Lemma move_2B2 sp a f bc de hl x i im i1 i2 e (j : junk3 T) m : codeR m -> bytesR m -> (q = false \/ i1 = false) -> 0 <= hl < 65536 -> 0x20 <= hi hl -> 256 * hi hl + 12 <= top ->
  (forall a f bc de hl' x' j, rAF x' = rAF x -> rIX x' = rIX x -> rIY x' = rIY x -> goes (Sr 0x2C0 sp a f bc de hl' x' (mkCtl (hi hl) im i1 i2 false) j) (copied 12 m (256 * hi hl) 0x100) []) ->
  goes (Sr 0x2B3 sp a f bc de hl x (mkCtl i im i1 i2 e) j) m [].
Proof.
  intros C Y Hq H H1 H2 K. pose proof (hi_range hl H) as HH. do 5 istep. apply (ldir 11); try assumption; try (unfold word_of; lia); try lia.
  intros fA jA. replace (word_of (hi hl) 0) with (256 * hi hl) by (unfold word_of; lia). pose proof (codeR_copied 12 m (256 * hi hl) 0x100 C ltac:(lia) ltac:(lia)) as CC.
  set (mc := copied 12 _ _ _) in *. clearbody mc. istepx. apply K; reflexivity.
Qed.
End Routines.
