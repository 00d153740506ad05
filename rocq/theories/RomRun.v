(** The kernel's character input and output and its interrupts in runs of the machine (C58). *)
From Coq Require Import ZArith Bool List Lia.
From Verif Require Import Base Flags Ops Parse Cpu Flavours Prog Trace Internal Instr Exec Range Clock RalMemory RalBus SpecRal RalMemProofs RalBusProofs SpecAlu SpecState SpecIsa
  AluProofs IsaLink IsaRun Steps Asm RomImage SpecRom RomHoare RomAsm RomIo.
Import ListNotations.
Open Scope Z_scope.

Section Link.
Context {Q T D : Type}.
Variable FL : Flavour Q.
Variable ch : SpecIsa.chip T.
Variable absq : Q -> T.
Context (OK : chip_ok FL ch absq).
Variables (dv : dev D) (limit kb : Z) (l0 : list mop) (mm : ralmem) (c : cpu Q) (d : D) (k : tclock).
Hypothesis (KM : kernel_mem kb l0 mm) (W : wf c).
Variable P : arch T -> mem -> list io -> Prop.
Notation top := (0x4000 + kb * 1024).
Notation m := (kview kb (rev l0)).
Lemma km_matches : matches kernel kb (rev l0) mm.
Proof. destruct KM as (m0 & r & K & N & A & R & _). exact (RalBusProofs.reached kernel kb m0 mm l0 r K N A R). Qed.
Lemma km_bytes : Forall byte_op (rev l0).
Proof. destruct KM as (m0 & r & _ & _ & _ & _ & B). apply Forall_forall. intros x X. apply in_rev in X. rewrite Forall_forall in B. exact (B x X). Qed.
Lemma km_kb : 0 <= kb * 1024 <= 0xC000.
Proof. exact (mt_kb _ _ _ _ km_matches). Qed.
Lemma km_sees : sees kb (rev l0) m.
Proof. intros x X. reflexivity. Qed.
Lemma end_of h c' (b' : bus D) l : reached absq kb P [] h c' b' l -> h = rev l0 -> at_end absq kb l0 P c' l.
Proof. intros (mm' & d' & m' & _ & _ & _ & _ & S & HP) ->. exists m'. split; [exact S|exact HP]. Qed.
Lemma comes_of : goes (WB:=unit) (RB:=unit) ch false top P (abs absq c) m [] -> comes FL absq dv limit kb l0 mm c d k P.
Proof.
  intros G. destruct (goes_good FL ch absq OK dv limit kb false P km_kb _ _ _ G c (rev l0) mm d k W eq_refl km_matches km_bytes km_sees) as (n & c' & b' & k' & l & E & O).
  exists n, c', b', k', l. split; [exact E|]. destruct O as [O|[[_ O]|[_ O]]]; [now left|now right; left|right; right]. exact (end_of _ _ _ _ O eq_refl).
Qed.
Lemma alone_of : goes (WB:=unit) (RB:=unit) ch true top P (abs absq c) m [] -> comes_alone FL absq dv limit kb l0 mm c d k P.
Proof.
  intros G. destruct (goes_good FL ch absq OK dv limit kb true P km_kb _ _ _ G c (rev l0) mm d k W eq_refl km_matches km_bytes km_sees) as (n & c' & b' & k' & l & E & O).
  exists n, c', b', k', l. split; [exact E|]. destruct O as [O|[[O _]|[O1 O]]]; [now left|discriminate O|right]. split; [exact (O1 eq_refl)|]. exact (end_of _ _ _ _ O eq_refl).
Qed.
Lemma irq_of : int_enabled (abs absq c) = true -> on (WB:=unit) (RB:=unit) ch false top P false (accept_int ch (abs absq c)) m [] ->
  answered FL absq dv limit kb l0 mm c d k P.
Proof.
  intros IE G. destruct (taken_good FL ch absq OK dv limit kb false P _ _ _ km_kb IE G c (rev l0) mm d k W eq_refl km_matches km_bytes km_sees) as (n & c' & b' & k' & l & E & O).
  exists n, c', b', k', l. split; [exact E|]. destruct O as [O|[(bs & O)|[[_ (bs & O & I)]|(HD & _ & O)]]]; [now left|right; left; now rewrite O| |].
  - right. right. rewrite O. split; [reflexivity|left; exact I].
  - right. right. split; [exact HD|right; exact (end_of _ _ _ _ O eq_refl)].
Qed.
Lemma irq_alone_of : int_enabled (abs absq c) = true -> on (WB:=unit) (RB:=unit) ch true top P false (accept_int ch (abs absq c)) m [] ->
  answered_alone FL absq dv limit kb l0 mm c d k P.
Proof.
  intros IE G. destruct (taken_good FL ch absq OK dv limit kb true P _ _ _ km_kb IE G c (rev l0) mm d k W eq_refl km_matches km_bytes km_sees) as (n & c' & b' & k' & l & E & O).
  exists n, c', b', k', l. split; [exact E|]. destruct O as [O|[(bs & O)|[[O _]|(_ & HA & O)]]]; [now left|right; left; now rewrite O|discriminate O|].
  right. right. split; [exact (HA eq_refl)|exact (end_of _ _ _ _ O eq_refl)].
Qed.
End Link.

(** States. *)
Definition rest_of {T} (a : arch T) : rest := mkRest (aAF' a) (aBC' a) (aDE' a) (aHL' a) (aIX a) (aIY a).
Definition ctl_of {T} (a : arch T) : ctl := mkCtl (aI a) (aIM a) (aIFF1 a) (aIFF2 a) (aEI a).
Definition junk_of {T} (a : arch T) : junk3 T := mkJunk3 (aWZ a) (aR a) (aQ a).
Lemma state_is {T} (a : arch T) : aPX a = None ->
  a = (if aHALT a then @Hr T else @Sr T) (aPC a) (aSP a) (aA a) (aF a) (aBC a) (aDE a) (aHL a) (rest_of a) (ctl_of a) (junk_of a).
Proof. destruct a; cbn. intros ->. destruct aHALT; reflexivity. Qed.
Lemma F_byte {Q T} (absq : Q -> T) c : wf c -> 0 <= aF (abs absq c) < 256.
Proof. intros W. apply lo8_byte. Qed.

Lemma bit_set m m' a k n : m' a = s_set k (m a) -> 0 <= n < 8 -> bit_at m' a n = bit_at m a n || (n =? k).
Proof. intros E N. unfold bit_at. rewrite E. exact (bitn_set k (m a) n N). Qed.
Lemma bit_res m m' a k n : m' a = s_res k (m a) -> 0 <= n < 8 -> bit_at m' a n = bit_at m a n && negb (n =? k).
Proof. intros E N. unfold bit_at. rewrite E. exact (bitn_res k (m a) n N). Qed.

Lemma ret_ready {T} (ch : SpecIsa.chip T) top (P : arch T -> mem -> list io -> Prop) pc sp bc de hl a0 a' m' o : ready pc sp bc de hl a0 a' -> aHALT a' = false -> pc = 0x188 \/ pc = 0x14E ->
  codeR m' -> 0x4000 <= sp -> sp + 2 <= 0x10000 ->
  (forall a2, ready (word_at m' sp) ((sp + 2) mod 0x10000) bc de hl a0 a2 -> aHALT a2 = false -> aA a2 = aA a' -> aF a2 = aF a' -> P a2 m' o) ->
  goes (WB:=unit) (RB:=unit) ch false top P a' m' o.
Proof.
  intros [] NH HP C S1 S2 K. rewrite (state_is a') by assumption. rewrite NH. unfold ctl_of. rewrite rd_pc, rd_sp, rd_bc, rd_de, rd_hl.
  apply ret_from; try assumption; [left; reflexivity|]. intros j. apply g_now. apply K; try reflexivity.
  constructor; try reflexivity; try assumption. unfold word_at, word_of. cbn [aPC Sr]. lia.
Qed.

(** RST 10h. *)
Section Put.
Context {T : Type}.
Variable ch : SpecIsa.chip T.
Variable q : bool.
Variable top : Z.
Hypothesis HT : 0x4000 <= top <= 0x10000.
Variables (a0 : arch T) (m : mem) (bc de hl : Z).
Hypothesis (C : codeR m) (A : 0 <= aA a0 < 256).
Lemma put_178 P f sp b2 d2 x k j : (forall a' m' o, put_post 0x188 sp bc de hl a0 m a' m' o -> codeR m' -> goes (WB:=unit) (RB:=unit) ch q top P a' m' o) ->
  q = false \/ k1 k = false -> carry a0 = Cf f -> sp = aSP a0 -> rAF x = aAF' a0 -> rBC x = bc -> rDE x = de -> rHL x = hl -> rIX x = aIX a0 -> rIY x = aIY a0 -> kI k = aI a0 -> kIM k = aIM a0 ->
  goes (WB:=unit) (RB:=unit) ch q top P (Sr 0x179 sp (aA a0) f b2 d2 0x2005 x k j) m [].
Proof.
  intros K Hq Ec Es E1 E2 E3 E4 E5 E6 E7 E8. destruct x as [xaf xbc xde xhl xix xiy]. destruct k as [i im i1 i2 e]. cbn [rAF rBC rDE rHL rIX rIY kI kIM k1] in *.
  subst. unfold put_post, put, out_of in K. cbn [waiting busy] in K. destruct (bitn (m 0x2005) 2) eqn:B2.
  - unfold bit_at at 1 in K. unfold bitn in B2. rewrite B2, Ec in K. fold (bitn (m 0x2005) 2) in B2. destruct (Cf f) eqn:CF.
    + apply put_full; try assumption. intros j0 f0 Zf0. apply K; [|exact C]. split; [reflexivity|]. split; [reflexivity|]. split; [intros y _ _; reflexivity|].
      split; [constructor; reflexivity|]. split; [reflexivity|exact Zf0].
    + apply put_wait; try assumption. intros j0 f0 Cf0. apply K; [|exact C]. split; [reflexivity|]. split; [reflexivity|]. split; [intros y _ _; reflexivity|].
      exists b2, d2. split; [constructor; reflexivity|]. split; [reflexivity|]. split; [exact Cf0|]. split; [reflexivity|]. split; reflexivity.
  - unfold bit_at at 1 in K. unfold bitn in B2. rewrite B2 in K. fold (bitn (m 0x2005) 2) in B2. destruct (bitn (m 0x2005) 3) eqn:B3.
    + unfold bit_at at 1 in K. unfold bitn in B3. rewrite B3 in K. fold (bitn (m 0x2005) 3) in B3.
      apply put_later; try assumption. intros j0 f0 Zf0. 
      set (m1 := mupd (mupd m 0x2005 (s_set 2 (m 0x2005))) 0x2006 (aA a0)).
      assert (E : m1 0x2005 = s_set 2 (m 0x2005)) by reflexivity.
      apply K; [|apply codeR_upd; [apply codeR_upd; [exact C|lia]|lia]].
      split; [reflexivity|]. split; [constructor; reflexivity|]. split; [reflexivity|]. split; [exact Zf0|]. split; [|split; [|split; [reflexivity|]]].
      * unfold out_of. rewrite !(bit_set m m1 0x2005 2) by first [exact E|lia]. unfold bitn in B3. unfold bit_at. rewrite B3. cbn [Z.eqb Pos.eqb]. rewrite orb_true_r. reflexivity.
      * unfold in_of. rewrite !(bit_set m m1 0x2005 2) by first [exact E|lia]. cbn [Z.eqb Pos.eqb]. rewrite !orb_false_r. reflexivity.
      * intros y _ Y. unfold m1, mupd. destruct (Z.eqb_spec y 0x2006); [exfalso; apply Y; now right|]. destruct (Z.eqb_spec y 0x2005); [exfalso; apply Y; now left|reflexivity].
    + unfold bit_at at 1 in K. unfold bitn in B3. rewrite B3 in K. fold (bitn (m 0x2005) 3) in B3.
      apply put_now; try assumption. intros j0 f0 Zf0.
      set (m1 := mupd m 0x2005 (s_set 3 (m 0x2005))).
      assert (E : m1 0x2005 = s_set 3 (m 0x2005)) by reflexivity.
      apply K; [|apply codeR_upd; [exact C|lia]].
      split; [reflexivity|]. split; [constructor; reflexivity|]. split; [reflexivity|]. split; [exact Zf0|]. split; [|split; [|split; [reflexivity|]]].
      * unfold out_of. rewrite !(bit_set m m1 0x2005 3) by first [exact E|lia]. unfold bitn in B2, B3. unfold bit_at. rewrite B2. cbn [Z.eqb Pos.eqb]. rewrite orb_true_r. reflexivity.
      * unfold in_of. rewrite !(bit_set m m1 0x2005 3) by first [exact E|lia]. cbn [Z.eqb Pos.eqb]. rewrite !orb_false_r. reflexivity.
      * intros y _ Y. unfold m1, mupd. destruct (Z.eqb_spec y 0x2005); [exfalso; apply Y; now left|reflexivity].
Qed.
End Put.

Section PutRun.
Context {T : Type}.
Variable ch : SpecIsa.chip T.
Variable top : Z.
Hypothesis HT : 0x4000 <= top <= 0x10000.
Variables (a0 : arch T) (m : mem).
Hypothesis (C : codeR m) (A : 0 <= aA a0 < 256) (PX : aPX a0 = None) (NH : aHALT a0 = false) (S : 0x4000 <= aSP a0 <= 0xFFFE).
Lemma put_goes : aPC a0 = 0x10 -> let P := put_post (word_at m (aSP a0)) ((aSP a0 + 2) mod 0x10000) (aBC a0) (aDE a0) (aHL a0) a0 m in
  goes (WB:=unit) (RB:=unit) ch false top P a0 m [].
Proof.
  intros PC P. rewrite (state_is a0 PX), NH, PC. unfold ctl_of.
  apply put_start; [left; reflexivity|exact C|]. intros j e. apply (put_178 ch false top HT a0 m (aBC a0) (aDE a0) (aHL a0) C A); try reflexivity; [|left; reflexivity].
  intros a' m' o H C'. unfold put_post in H. destruct H as [HA H].
  destruct (put (aA a0) (out_of m)) as [[c sent]|] eqn:EP.
  - destruct H as (R & H1 & H2 & H3 & H4 & H5 & H6). refine (ret_ready ch top P _ _ _ _ _ a0 a' m' o R H1 (or_introl eq_refl) C' _ _ _); [lia|lia|].
    intros a2 R2 NH2 A2 F2. unfold P, put_post. rewrite EP. split; [congruence|].
    assert (EW : word_at m' (aSP a0) = word_at m (aSP a0)) by (unfold word_at; rewrite !H6 by lia; reflexivity). rewrite <- EW.
    split; [exact R2|]. split; [exact NH2|]. split; [unfold zero; rewrite F2; exact H2|]. auto.
  - destruct H as (H1 & H2 & H). destruct (carry a0) eqn:EC.
    + destruct H as (R & H3 & H4). refine (ret_ready ch top P _ _ _ _ _ a0 a' m' o R H3 (or_introl eq_refl) C' _ _ _); [lia|lia|].
      intros a2 R2 NH2 A2 F2. unfold P, put_post. rewrite EP, EC. split; [congruence|].
      assert (EW : word_at m' (aSP a0) = word_at m (aSP a0)) by (unfold word_at; rewrite !H2 by (try lia; tauto); reflexivity). rewrite <- EW.
      split; [exact H1|]. split; [exact H2|]. split; [exact R2|]. split; [exact NH2|]. unfold zero; rewrite F2; exact H4.
    + apply g_now. unfold P, put_post. rewrite EP, EC. auto.
Qed.
Lemma put_again_goes : aPC a0 = 0x18D -> aHL a0 = 0x2005 -> let P := put_post (word_at m (aSP a0)) ((aSP a0 + 2) mod 0x10000) (aBC' a0) (aDE' a0) (aHL' a0) a0 m in
  goes (WB:=unit) (RB:=unit) ch false top P a0 m [].
Proof.
  intros PC HL P. rewrite (state_is a0 PX), NH, PC, HL. unfold ctl_of.
  apply put_again; [left; reflexivity|exact C|]. intros j e. apply (put_178 ch false top HT a0 m (aBC' a0) (aDE' a0) (aHL' a0) C A); try reflexivity; [|left; reflexivity].
  intros a' m' o H C'. unfold put_post in H. destruct H as [HA H].
  destruct (put (aA a0) (out_of m)) as [[c sent]|] eqn:EP.
  - destruct H as (R & H1 & H2 & H3 & H4 & H5 & H6). refine (ret_ready ch top P _ _ _ _ _ a0 a' m' o R H1 (or_introl eq_refl) C' _ _ _); [lia|lia|].
    intros a2 R2 NH2 A2 F2. unfold P, put_post. rewrite EP. split; [congruence|].
    assert (EW : word_at m' (aSP a0) = word_at m (aSP a0)) by (unfold word_at; rewrite !H6 by lia; reflexivity). rewrite <- EW.
    split; [exact R2|]. split; [exact NH2|]. split; [unfold zero; rewrite F2; exact H2|]. auto.
  - destruct H as (H1 & H2 & H). destruct (carry a0) eqn:EC.
    + destruct H as (R & H3 & H4). refine (ret_ready ch top P _ _ _ _ _ a0 a' m' o R H3 (or_introl eq_refl) C' _ _ _); [lia|lia|].
      intros a2 R2 NH2 A2 F2. unfold P, put_post. rewrite EP, EC. split; [congruence|].
      assert (EW : word_at m' (aSP a0) = word_at m (aSP a0)) by (unfold word_at; rewrite !H2 by (try lia; tauto); reflexivity). rewrite <- EW.
      split; [exact H1|]. split; [exact H2|]. split; [exact R2|]. split; [exact NH2|]. unfold zero; rewrite F2; exact H4.
    + apply g_now. unfold P, put_post. rewrite EP, EC. auto.
Qed.
(** With interrupts off, from the flags to the end. *)
Lemma put_alone : aPC a0 = 0x179 -> aHL a0 = 0x2005 -> aIFF1 a0 = false -> goes (WB:=unit) (RB:=unit) ch true top (put_post 0x188 (aSP a0) (aBC' a0) (aDE' a0) (aHL' a0) a0 m) a0 m [].
Proof.
  intros PC HL I1. set (P := put_post 0x188 (aSP a0) (aBC' a0) (aDE' a0) (aHL' a0) a0 m). rewrite (state_is a0 PX), NH, PC, HL. apply (put_178 ch true top HT a0 m (aBC' a0) (aDE' a0) (aHL' a0) C A); try reflexivity; [|right; exact I1].
  intros a' m' o H _. apply g_now. exact H.
Qed.
End PutRun.

(** RST 08h. *)
Section Get.
Context {T : Type}.
Variable ch : SpecIsa.chip T.
Variable q : bool.
Variable top : Z.
Hypothesis HT : 0x4000 <= top <= 0x10000.
Variables (a0 : arch T) (m : mem) (bc de hl : Z).
Hypothesis (C : codeR m) (Y : bytesR m) (A : 0 <= aA a0 < 256) (SP : 0x4002 <= aSP a0 <= top) (SP' : aSP a0 < 0x10000).
Lemma get_13E P f sp b2 d2 x k j : (forall a' m' o, get_post 0x14E sp bc de hl a0 m a' m' o -> codeR m' -> goes (WB:=unit) (RB:=unit) ch q top P a' m' o) ->
  q = false \/ k1 k = false -> carry a0 = Cf f -> sp = aSP a0 -> rAF x = aAF' a0 -> rBC x = bc -> rDE x = de -> rHL x = hl -> rIX x = aIX a0 -> rIY x = aIY a0 -> kI k = aI a0 -> kIM k = aIM a0 ->
  goes (WB:=unit) (RB:=unit) ch q top P (Sr 0x13F sp (aA a0) f b2 d2 0x2005 x k j) m [].
Proof.
  intros K Hq Ec Es E1 E2 E3 E4 E5 E6 E7 E8. destruct x as [xaf xbc xde xhl xix xiy]. destruct k as [i im i1 i2 e]. cbn [rAF rBC rDE rHL rIX rIY kI kIM k1] in *.
  subst. unfold get_post in K. change (have (in_of m)) with (if bit_at m 0x2005 1 then Some (m 0x2004) else None) in K. change (more (in_of m)) with (bit_at m 0x2005 0) in K.
  destruct (bitn (m 0x2005) 1) eqn:B1.
  - assert (B1' : bit_at m 0x2005 1 = true) by exact B1. rewrite B1' in K. destruct (bitn (m 0x2005) 0) eqn:B0.
    + assert (B0' : bit_at m 0x2005 0 = true) by exact B0. rewrite B0' in K.
      apply get_more; try assumption. intros j0 f0 m1 v Hv Zf0 C1 U1 E1 V1. apply K; [|exact C1].
      split; [constructor; reflexivity|]. split; [reflexivity|]. split; [exact Zf0|]. split; [reflexivity|]. split; [|split].
      * unfold out_of. rewrite !(bit_res m m1 0x2005 0) by first [exact E1|lia]. cbn [Z.eqb Pos.eqb negb]. rewrite !andb_true_r, (U1 0x2006) by lia. reflexivity.
      * exists v. split; [reflexivity|]. unfold in_of. rewrite !(bit_res m m1 0x2005 0) by first [exact E1|lia]. cbn [Z.eqb Pos.eqb negb]. rewrite B1', andb_true_r, andb_false_r, V1. reflexivity.
      * intros y _ Y0. apply U1; lia.
    + assert (B0' : bit_at m 0x2005 0 = false) by exact B0. rewrite B0' in K.
      apply get_last; try assumption. intros j0 f0 Zf0. set (m1 := mupd m 0x2005 (s_res 1 (m 0x2005))).
      assert (E : m1 0x2005 = s_res 1 (m 0x2005)) by reflexivity. apply K; [|apply codeR_upd; [exact C|lia]].
      split; [constructor; reflexivity|]. split; [reflexivity|]. split; [exact Zf0|]. split; [reflexivity|]. split; [|split].
      * unfold out_of. rewrite !(bit_res m m1 0x2005 1) by first [exact E|lia]. cbn [Z.eqb Pos.eqb negb]. rewrite !andb_true_r. reflexivity.
      * split; [reflexivity|]. unfold in_of. rewrite !(bit_res m m1 0x2005 1) by first [exact E|lia]. cbn [Z.eqb Pos.eqb negb]. rewrite B0', andb_false_r. reflexivity.
      * intros y _ Y0. unfold m1, mupd. destruct (Z.eqb_spec y 0x2005); [lia|reflexivity].
  - assert (B1' : bit_at m 0x2005 1 = false) by exact B1. rewrite B1', Ec in K. destruct (Cf f) eqn:CF.
    + apply get_wait; try assumption. intros j0 f0 Cf0. apply K; [|exact C]. split; [reflexivity|]. split; [intros y _ _; reflexivity|]. split; [reflexivity|].
      exists b2, d2. split; [constructor; reflexivity|]. split; [reflexivity|]. split; [exact Cf0|]. split; [reflexivity|]. split; reflexivity.
    + apply get_none; try assumption. intros j0 f0 Zf0. apply K; [|exact C]. split; [reflexivity|]. split; [intros y _ _; reflexivity|]. split; [reflexivity|].
      split; [constructor; reflexivity|]. split; [reflexivity|exact Zf0].
Qed.
(** RET. *)
Lemma get_ret (bc' de' hl' : Z) a' m' o : aSP a0 <= 0xFFFE -> get_post 0x14E (aSP a0) bc' de' hl' a0 m a' m' o -> codeR m' ->
  goes (WB:=unit) (RB:=unit) ch false top (get_post (word_at m (aSP a0)) ((aSP a0 + 2) mod 0x10000) bc' de' hl' a0 m) a' m' o.
Proof.
  intros S2 H C'. unfold get_post in *. destruct (have (in_of m)) as [v|] eqn:EH.
  - destruct H as (R & H1 & H2 & H3 & H4 & H5 & H6).
    refine (ret_ready ch top _ _ _ _ _ _ a0 a' m' o R H1 (or_intror eq_refl) C' _ _ _); [lia|lia|].
    intros a2 R2 NH2 A2 F2. assert (EW : word_at m' (aSP a0) = word_at m (aSP a0)) by (unfold word_at; rewrite !H6 by lia; reflexivity). rewrite <- EW.
    split; [exact R2|]. split; [exact NH2|]. split; [unfold zero; rewrite F2; exact H2|]. split; [congruence|]. auto.
  - destruct H as (H1 & H2 & H3 & H). destruct (carry a0).
    + apply g_now. auto.
    + destruct H as (R & H4 & H5). refine (ret_ready ch top _ _ _ _ _ _ a0 a' m' o R H4 (or_intror eq_refl) C' _ _ _); [lia|lia|].
      intros a2 R2 NH2 A2 F2. assert (EW : word_at m' (aSP a0) = word_at m (aSP a0)) by (unfold word_at; rewrite !H2 by (try lia; tauto); reflexivity). rewrite <- EW.
      split; [exact H1|]. split; [exact H2|]. split; [congruence|]. split; [exact R2|]. split; [exact NH2|]. unfold zero; rewrite F2; exact H5.
Qed.
End Get.
Section GetRun.
Context {T : Type}.
Variable ch : SpecIsa.chip T.
Variable top : Z.
Hypothesis HT : 0x4000 <= top <= 0x10000.
Variables (a0 : arch T) (m : mem).
Hypothesis (C : codeR m) (Y : bytesR m) (A : 0 <= aA a0 < 256) (PX : aPX a0 = None) (NH : aHALT a0 = false) (S : 0x4002 <= aSP a0 <= top).
Lemma get_goes : aSP a0 <= 0xFFFE -> aPC a0 = 0x08 -> let P := get_post (word_at m (aSP a0)) ((aSP a0 + 2) mod 0x10000) (aBC a0) (aDE a0) (aHL a0) a0 m in
  goes (WB:=unit) (RB:=unit) ch false top P a0 m [].
Proof.
  intros S' PC P. rewrite (state_is a0 PX), NH, PC. unfold ctl_of.
  apply get_start; [left; reflexivity|exact C|]. intros j e. assert (S2 : aSP a0 < 0x10000) by lia.
  apply (get_13E ch false top HT a0 m (aBC a0) (aDE a0) (aHL a0) C Y A S S2); try reflexivity; [|left; reflexivity].
  intros a' m' o H C'. apply get_ret; assumption.
Qed.
Lemma get_again_goes : aSP a0 <= 0xFFFE -> aPC a0 = 0x153 -> aHL a0 = 0x2005 ->
  let P := get_post (word_at m (aSP a0)) ((aSP a0 + 2) mod 0x10000) (aBC' a0) (aDE' a0) (aHL' a0) a0 m in
  goes (WB:=unit) (RB:=unit) ch false top P a0 m [].
Proof.
  intros S' PC HL P. rewrite (state_is a0 PX), NH, PC, HL. unfold ctl_of.
  apply get_again; [left; reflexivity|exact C|]. intros j e. assert (S2 : aSP a0 < 0x10000) by lia.
  apply (get_13E ch false top HT a0 m (aBC' a0) (aDE' a0) (aHL' a0) C Y A S S2); try reflexivity; [|left; reflexivity].
  intros a' m' o H C'. apply get_ret; assumption.
Qed.
Lemma get_alone : aSP a0 < 0x10000 -> aPC a0 = 0x13F -> aHL a0 = 0x2005 -> aIFF1 a0 = false -> goes (WB:=unit) (RB:=unit) ch true top (get_post 0x14E (aSP a0) (aBC' a0) (aDE' a0) (aHL' a0) a0 m) a0 m [].
Proof.
  intros S2 PC HL I1. set (P := get_post 0x14E (aSP a0) (aBC' a0) (aDE' a0) (aHL' a0) a0 m). rewrite (state_is a0 PX), NH, PC, HL.
  apply (get_13E ch true top HT a0 m (aBC' a0) (aDE' a0) (aHL' a0) C Y A S S2); try reflexivity; [|right; exact I1].
  intros a' m' o H _. apply g_now. exact H.
Qed.
End GetRun.

(** Interrupts. *)
Section Irq.
Context {T : Type}.
Variable ch : SpecIsa.chip T.
Variable q : bool.
Variable top : Z.
Hypothesis HT : 0x4000 <= top <= 0x10000.
Variables (a0 : arch T) (m : mem).
Hypothesis (C : codeR m) (Y : bytesR m) (A : 0 <= aA a0 < 256) (F : 0 <= aF a0 < 256) (HL : 0 <= aHL a0 < 0x10000) (PCR : 0 <= aPC a0 < 0x10000)
  (S : 0x2016 <= aSP a0 <= top) (S' : aSP a0 < 0x10000) (IM2 : aIM a0 = Mode2).
Definition mid (v : Z) (a' : arch T) (m' : mem) (o : list io) : Prop := exists o', serves v a0 m m' o' /\ codeR m' /\
  (if (v =? 8) || (v =? 10) then o = IAck v :: o' /\ nearly v a0 a' m' else o = IAck v :: o' ++ [IReti] /\ restored a0 a').
Definition entry (v : Z) : Z := word_of (nth (Z.to_nat (256 + v + 1)) kernel 255) (nth (Z.to_nat (256 + v)) kernel 255).
Definition pushed2 (m1 : mem) : Prop := codeR m1 /\ bytesR m1 /\ (forall y, y < aSP a0 - 2 \/ aSP a0 <= y -> m1 y = m y) /\ m1 (aSP a0 - 1) = hi (resume a0) /\ m1 (aSP a0 - 2) = lo (resume a0).
Lemma resume_range : 0 <= resume a0 < 0x10000.
Proof. unfold resume. destruct (aHALT a0); [apply Z.mod_pos_bound; lia|exact PCR]. Qed.
Notation start v m1 := (fun P => forall j, goes (WB:=unit) (RB:=unit) ch q top P (Sr (entry v) (aSP a0 - 2) (aA a0) (aF a0) (aBC a0) (aDE a0) (aHL a0) (rest_of a0) (mkCtl (aI a0) Mode2 false false false) j) m1 [IAck v]).
Lemma ticks_same (m' : mem) : (forall n, 0x2000 <= n <= 0x2003 -> m' n = m n) -> ticks_of m' = ticks_of m.
Proof. intros H. unfold ticks_of. rewrite !H by lia. reflexivity. Qed.
Lemma serve_clock m1 P : pushed2 m1 -> (forall a' m' o, mid 0 a' m' o -> goes (WB:=unit) (RB:=unit) ch q top P a' m' o) -> start 0 m1 P.
Proof.
  intros (C1 & Y1 & U1 & H1 & L1) K j. change (entry 0) with 0x10F. apply tick; try assumption; try lia.
  intros j' m' C' Y' U' T'. apply K. exists []. split; [|split; [exact C'|]].
  - split; [|split; [|split; [|split; [|right; right; reflexivity]]]].
    + intros y Hy N. rewrite U', U1 by lia. reflexivity.
    + change (0 =? 0) with true. cbv iota. unfold ticks_of. unfold ticks in T'. rewrite !(U1 0x2000), !(U1 0x2001), !(U1 0x2002), !(U1 0x2003) in T' by lia.
      replace (m 8192 + 2 ^ 8 * m 8193 + 2 ^ 16 * m 8194 + 2 ^ 24 * m 8195) with (m 8192 + 256 * (m 8193 + 256 * (m 8194 + 256 * m 8195))) by lia. rewrite <- T'. lia.
    + change (0 =? 10) with false. cbv iota. unfold out_of, bit_at. rewrite !U', !U1 by lia. reflexivity.
    + change (0 =? 8) with false. cbv iota. unfold in_of, bit_at. rewrite !U', !U1 by lia. reflexivity.
  - change ((0 =? 8) || (0 =? 10)) with false. cbv iota. split; [reflexivity|].
    replace (aSP a0 - 2 + 2) with (aSP a0) by lia. replace (aSP a0 - 2 + 1) with (aSP a0 - 1) by lia. rewrite H1, L1, word_hi_lo, w16_id by lia.
    split; [constructor; try reflexivity; symmetry; exact IM2|]. auto 9.
Qed.
Lemma serve_none v m1 P : v = 2 \/ v = 4 \/ v = 6 -> pushed2 m1 -> (forall a' m' o, mid v a' m' o -> goes (WB:=unit) (RB:=unit) ch q top P a' m' o) -> start v m1 P.
Proof.
  intros V (C1 & Y1 & U1 & H1 & L1) K j. assert (EV : entry v = 0x10C) by (destruct V as [->|[->| ->]]; reflexivity). rewrite EV.
  apply none_int; try assumption; try lia. intros j'. apply K. exists []. split; [|split; [exact C1|]].
  - split; [|split; [|split; [|split; [|right; right; reflexivity]]]].
    + intros y Hy N. rewrite U1 by lia. reflexivity.
    + destruct (Z.eqb_spec v 0); [lia|]. apply ticks_same. intros k N. apply U1. lia.
    + destruct (Z.eqb_spec v 10); [lia|]. unfold out_of, bit_at. rewrite !U1 by lia. reflexivity.
    + destruct (Z.eqb_spec v 8); [lia|]. unfold in_of, bit_at. rewrite !U1 by lia. reflexivity.
  - assert (EB : (v =? 8) || (v =? 10) = false) by lia. rewrite EB. split; [reflexivity|].
    replace (aSP a0 - 2 + 2) with (aSP a0) by lia. replace (aSP a0 - 2 + 1) with (aSP a0 - 1) by lia. rewrite H1, L1, word_hi_lo, w16_id by lia.
    split; [constructor; try reflexivity; symmetry; exact IM2|]. auto 9.
Qed.
Lemma word_pushed m1 m' : m1 (aSP a0 - 1) = hi (resume a0) -> m1 (aSP a0 - 2) = lo (resume a0) -> m' (aSP a0 - 2) = m1 (aSP a0 - 2) -> m' (aSP a0 - 1) = m1 (aSP a0 - 1) -> word_at m' (aSP a0 - 2) = resume a0.
Proof.
  intros H1 H2 H3 H4. unfold word_at. replace (aSP a0 - 2 + 1) with (aSP a0 - 1) by lia. rewrite H3, H4, H1, H2. rewrite <- (word_hi_lo (resume a0)) at 3. unfold word_of. lia.
Qed.
Lemma serve_out m1 P : pushed2 m1 -> (forall a' m' o, mid 10 a' m' o -> goes (WB:=unit) (RB:=unit) ch q top P a' m' o) -> start 10 m1 P.
Proof.
  intros (C1 & Y1 & U1 & H1 & L1) K j. change (entry 10) with 0x160.
  assert (FL1 : m1 0x2005 = m 0x2005) by (apply U1; lia). assert (CO1 : m1 0x2006 = m 0x2006) by (apply U1; lia).
  assert (G : forall a' m' j o', codeR m' -> (forall y, y < aSP a0 - 6 \/ aSP a0 - 2 <= y -> y <> 0x2005 -> m' y = m1 y) ->
    m' (aSP a0 - 3) = aA a0 -> m' (aSP a0 - 4) = aF a0 -> (forall n, 0 <= n < 2 -> bit_at m' 0x2005 n = bit_at m 0x2005 n) ->
    (out_of m', o') = (fst (taken (out_of m)), map to_b (snd (taken (out_of m)))) ->
    a' = Sr 0x171 (aSP a0 - 4) (aA a') (aF a') (aBC a0) (aDE a0) (aHL a0) (rest_of a0) (mkCtl (aI a0) Mode2 true true false) j -> mid 10 a' m' (IAck 10 :: o')) .
  { intros a' m' j' o' C' U' A' F' N' O' E'. assert (U2 : forall y, y < aSP a0 - 6 \/ aSP a0 <= y -> y <> 0x2005 -> m' y = m y) by (intros y Y1' Y2'; rewrite U', U1 by lia; reflexivity). exists o'. split; [|split; [exact C'|]].
    - split; [|split; [|split; [exact O'|split; [|right; left; reflexivity]]]].
      + intros y Hy N. apply U2; lia.
      + change (10 =? 0) with false. cbv iota. apply ticks_same. intros k N. apply U2; lia.
      + change (10 =? 8) with false. cbv iota. unfold in_of. rewrite !N' by lia. rewrite (U2 0x2004) by lia. reflexivity.
    - change ((10 =? 8) || (10 =? 10)) with true. cbv iota. split; [reflexivity|]. unfold nearly. change (10 =? 8) with false. cbv iota. rewrite E'.
      split; [constructor; try reflexivity; symmetry; exact IM2|]. repeat (split; [reflexivity|]). split; [exact A'|]. split; [exact F'|].
      apply (word_pushed m1); try assumption; apply U'; lia. }
  destruct (bitn (m1 0x2005) 2) eqn:B2.
  - assert (B2' : bit_at m 0x2005 2 = true) by (unfold bit_at; rewrite <- FL1; exact B2). apply out_more; try assumption; try lia.
    intros j' b g m' C' U' A' F' E'. rewrite FL1 in E'. apply K. rewrite CO1. replace (aSP a0 - 2 - 1) with (aSP a0 - 3) in A' by lia. replace (aSP a0 - 2 - 2) with (aSP a0 - 4) in * by lia.
    apply (G _ _ j' [to_b (m 0x2006)]); try assumption; [intros y W1 W2; apply U'; lia| | |reflexivity].
    + intros n N. rewrite (bit_res m m' 0x2005 2) by first [exact E'|lia]. destruct (Z.eqb_spec n 2); [lia|]. apply andb_true_r.
    + unfold taken, out_of. cbn [waiting busy]. rewrite !(bit_res m m' 0x2005 2) by first [exact E'|lia]. rewrite B2'. cbn [Z.eqb Pos.eqb negb fst snd map]. rewrite andb_true_r, andb_false_r. reflexivity.
  - assert (B2' : bit_at m 0x2005 2 = false) by (unfold bit_at; rewrite <- FL1; exact B2). apply out_idle; try assumption; try lia.
    intros j' b g m' C' U' A' F' E'. rewrite FL1 in E'. apply K. replace (aSP a0 - 2 - 1) with (aSP a0 - 3) in A' by lia. replace (aSP a0 - 2 - 2) with (aSP a0 - 4) in * by lia.
    apply (G _ _ j' []); try assumption; [intros y W1 W2; apply U'; lia| | |reflexivity].
    + intros n N. rewrite (bit_res m m' 0x2005 3) by first [exact E'|lia]. destruct (Z.eqb_spec n 3); [lia|]. apply andb_true_r.
    + unfold taken, out_of. cbn [waiting busy]. rewrite !(bit_res m m' 0x2005 3) by first [exact E'|lia]. rewrite B2'. cbn [Z.eqb Pos.eqb negb fst snd map andb]. rewrite andb_false_r. reflexivity.
Qed.
Lemma serve_in m1 P : pushed2 m1 -> (forall a' m' o, mid 8 a' m' o -> goes (WB:=unit) (RB:=unit) ch q top P a' m' o) -> start 8 m1 P.
Proof.
  intros (C1 & Y1 & U1 & H1 & L1) K j. change (entry 8) with 0x126.
  assert (FL1 : m1 0x2005 = m 0x2005) by (apply U1; lia). assert (CI1 : m1 0x2004 = m 0x2004) by (apply U1; lia).
  assert (G : forall a' m' j o', codeR m' -> (forall y, y < aSP a0 - 6 \/ aSP a0 - 2 <= y -> y <> 0x2005 -> y <> 0x2004 -> m' y = m1 y) ->
    m' (aSP a0 - 3) = aA a0 -> m' (aSP a0 - 4) = aF a0 -> (forall k, 2 <= k < 4 -> bit_at m' 0x2005 k = bit_at m 0x2005 k) ->
    (match have (in_of m) with None => exists b, o' = [IIn (256 * aA a0 + 8) b] /\ in_of m' = mkIn (Some b) (more (in_of m)) | Some w => o' = [] /\ in_of m' = mkIn (Some w) true end) ->
    a' = Sr 0x137 (aSP a0 - 4) (aA a') (aF a') (aBC a0) (aDE a0) (aHL a0) (rest_of a0) (mkCtl (aI a0) Mode2 true true false) j -> mid 8 a' m' (IAck 8 :: o')) .
  { intros a' m' j' o' C' U' A' F' N' O' E'. assert (U2 : forall y, y < aSP a0 - 6 \/ aSP a0 <= y -> y <> 0x2005 -> y <> 0x2004 -> m' y = m y) by (intros y Y1' Y2' Y3'; rewrite U', U1 by lia; reflexivity). exists o'. split; [|split; [exact C'|]].
    - split; [|split; [|split; [|split; [exact O'|left; reflexivity]]]].
      + intros y Hy N. apply U2; lia.
      + change (8 =? 0) with false. cbv iota. apply ticks_same. intros k N. apply U2; lia.
      + change (8 =? 10) with false. cbv iota. unfold out_of. rewrite !N' by lia. rewrite (U2 0x2006) by lia. reflexivity.
    - change ((8 =? 8) || (8 =? 10)) with true. cbv iota. split; [reflexivity|]. unfold nearly. change (8 =? 8) with true. cbv iota. rewrite E'.
      split; [constructor; try reflexivity; symmetry; exact IM2|]. repeat (split; [reflexivity|]). split; [exact A'|]. split; [exact F'|].
      apply (word_pushed m1); try assumption; apply U'; lia. }
  destruct (bitn (m1 0x2005) 1) eqn:B1.
  - assert (B1' : bit_at m 0x2005 1 = true) by (unfold bit_at; rewrite <- FL1; exact B1). apply in_next; try assumption; try lia.
    intros j' b g m' C' U' A' F' E'. rewrite FL1 in E'. apply K. replace (aSP a0 - 2 - 1) with (aSP a0 - 3) in A' by lia. replace (aSP a0 - 2 - 2) with (aSP a0 - 4) in * by lia.
    apply (G _ _ j' []); try assumption; [intros y W1 W2 W3; apply U'; lia| | |reflexivity].
    + intros k N. rewrite (bit_set m m' 0x2005 0) by first [exact E'|lia]. destruct (Z.eqb_spec k 0); [lia|]. apply orb_false_r.
    + change (have (in_of m)) with (if bit_at m 0x2005 1 then Some (m 0x2004) else None). rewrite B1'. split; [reflexivity|]. unfold in_of. rewrite !(bit_set m m' 0x2005 0) by first [exact E'|lia].
      rewrite B1'. cbn [Z.eqb Pos.eqb orb]. rewrite orb_true_r, (U' 0x2004), CI1 by lia. reflexivity.
  - assert (B1' : bit_at m 0x2005 1 = false) by (unfold bit_at; rewrite <- FL1; exact B1). apply in_first; try assumption; try lia.
    intros j' b g m' v V C' U' A' F' E' V'. rewrite FL1 in E'. apply K. replace (aSP a0 - 2 - 1) with (aSP a0 - 3) in A' by lia. replace (aSP a0 - 2 - 2) with (aSP a0 - 4) in * by lia.
    apply (G _ _ j' [IIn (word_of (aA a0) 8) v]); try assumption; [intros y W1 W2 W3; apply U'; lia| | |reflexivity].
    + intros k N. rewrite (bit_set m m' 0x2005 1) by first [exact E'|lia]. destruct (Z.eqb_spec k 1); [lia|]. apply orb_false_r.
    + change (have (in_of m)) with (if bit_at m 0x2005 1 then Some (m 0x2004) else None). rewrite B1'. exists v. split; [reflexivity|]. unfold in_of. rewrite !(bit_set m m' 0x2005 1) by first [exact E'|lia].
      rewrite B1', V'. cbn [Z.eqb Pos.eqb orb more]. rewrite orb_false_r. reflexivity.
Qed.
(** Accepting, and the handler. *)
Hypothesis (PX : aPX a0 = None) (EI0 : aEI a0 = false) (I1 : aI a0 = 1).
Lemma irq_on (r : bool) P : r = true \/ 0x4006 <= aSP a0 -> (forall v a' m' o, In v vectors -> mid v a' m' o -> goes (WB:=unit) (RB:=unit) ch q top P a' m' o) ->
  (forall v a' m', ~ In v vectors -> P a' m' [IAck v]) ->
  on (WB:=unit) (RB:=unit) ch q top P r (accept_int ch a0) m [].
Proof.
  intros RR0 K1 K2. rewrite (state_is a0 PX). unfold ctl_of. rewrite EI0, IM2, I1. apply taken_on; [destruct RR0 as [->|?]; [lia|destruct r; lia]|lia|lia|].
  intros v j Hv m1. assert (RES : (if aHALT a0 then w16 (aPC a0 + 1) else aPC a0) = resume a0) by reflexivity.
  assert (P2 : pushed2 m1).
  { unfold m1. rewrite RES. pose proof resume_range as RR. pose proof (hi_range (resume a0) RR) as HR. pose proof (lo_range (resume a0)) as LR.
    rewrite !Z.mod_small by lia. split; [apply codeR_upd; [apply codeR_upd; [exact C|lia]|lia]|]. split; [apply bytesR_upd; [apply bytesR_upd; [exact Y|lia]|lia]|].
    unfold mupd. split; [|split].
    - intros y Hy. destruct (Z.eqb_spec y (aSP a0 - 2)); [lia|]. destruct (Z.eqb_spec y (aSP a0 - 1)); [lia|reflexivity].
    - destruct (Z.eqb_spec (aSP a0 - 1) (aSP a0 - 2)); [lia|]. rewrite Z.eqb_refl. reflexivity.
    - rewrite Z.eqb_refl. reflexivity. }
  clearbody m1. cbn [app].
  destruct (in_dec Z.eq_dec v vectors) as [I|I]; [|apply g_now; apply K2; exact I].
  assert (EE : word_of (m (w16 (256 * 1 + v + 1))) (m (256 * 1 + v)) = entry v).
  { unfold entry. assert (V10 : v <= 10) by (unfold vectors in I; cbn [In] in I; lia). rewrite w16_id by lia. rewrite !(C _) by lia. reflexivity. }
  rewrite EE. specialize (K1 v). unfold vectors in I. cbn [In] in I. clear K2 EE RES. revert j. rewrite <- I1.
  destruct I as [<-|[<-|[<-|[<-|[<-|[<-|[]]]]]]].
  - apply serve_clock; [exact P2|intros a' m' o; apply K1; cbn; tauto].
  - apply serve_none; [lia|exact P2|intros a' m' o; apply K1; cbn; tauto].
  - apply serve_none; [lia|exact P2|intros a' m' o; apply K1; cbn; tauto].
  - apply serve_none; [lia|exact P2|intros a' m' o; apply K1; cbn; tauto].
  - apply serve_in; [exact P2|intros a' m' o; apply K1; cbn; tauto].
  - apply serve_out; [exact P2|intros a' m' o; apply K1; cbn; tauto].
Qed.

Lemma irq_first_on (r : bool) : r = true \/ 0x4006 <= aSP a0 -> on (WB:=unit) (RB:=unit) ch q top (irq_first a0 m) r (accept_int ch a0) m [].
Proof.
  intros RR0. apply irq_on; [exact RR0| |].
  - intros v a' m' o I (o' & SV & _ & X). apply g_now. exists v. split; [|intros N; contradiction]. intros _. exists o'. split; [exact SV|exact X].
  - intros v a' m' N. exists v. split; [intros I; contradiction|reflexivity].
Qed.
End Irq.
Section IrqBack.
Context {T : Type}.
Variable ch : SpecIsa.chip T.
Variable top : Z.
Hypothesis HT : 0x4000 <= top <= 0x10000.
Variables (a0 : arch T) (m : mem).
Hypothesis (C : codeR m) (Y : bytesR m) (A : 0 <= aA a0 < 256) (F : 0 <= aF a0 < 256) (HL : 0 <= aHL a0 < 0x10000) (PCR : 0 <= aPC a0 < 0x10000)
  (S : 0x4006 <= aSP a0 <= top) (S' : aSP a0 < 0x10000) (IM2 : aIM a0 = Mode2) (PX : aPX a0 = None) (EI0 : aEI a0 = false) (I1 : aI a0 = 1).
Lemma irq_post_on : on (WB:=unit) (RB:=unit) ch false top (irq_post a0 m) false (accept_int ch a0) m [].
Proof.
  apply irq_on; try assumption; try lia.
  2: { intros v a' m' N. exists v. split; [intros I; contradiction|reflexivity]. }
  intros v a' m' o I (o' & SV & C' & X). destruct ((v =? 8) || (v =? 10)) eqn:EV.
  - destruct X as (-> & R & B' & D' & H' & NH & MA & MF & MW). destruct R.
    rewrite (state_is a') by assumption. rewrite NH. unfold ctl_of. rewrite rd_pc, rd_sp, rd_bc, rd_de, rd_hl, rd_1, rd_2.
    assert (MA' : m' (aSP a0 - 4 + 1) = aA a0) by (replace (aSP a0 - 4 + 1) with (aSP a0 - 3) by lia; exact MA).
    apply leave; [left; reflexivity|exact C'|lia|lia|destruct (v =? 8); [right|left]; reflexivity|lia|lia|].
    intros j. apply g_now. exists v. split; [|intros N; contradiction]. intros _. exists o'. split; [reflexivity|].
    replace (aSP a0 - 4 + 4) with (aSP a0) by lia. replace (aSP a0 - 4 + 3) with (aSP a0 - 2 + 1) by lia. replace (aSP a0 - 4 + 2) with (aSP a0 - 2) by lia.
    rewrite MA', MF, w16_id by lia. unfold word_at in MW. unfold word_of. rewrite Z.add_comm, MW.
    split; [|exact SV]. split; [constructor; try reflexivity; cbn; congruence|]. cbn. auto 9.
  - destruct X as (-> & R). apply g_now. exists v. split; [|intros N; contradiction]. intros _. exists o'. auto.
Qed.
End IrqBack.

(** ** The order of characters *)
Lemma outs_order c accepted tr c' : outs c accepted tr c' -> pending c ++ accepted = given tr ++ pending c'.
Proof.
  induction 1 as [c|c v c1 s ac tr c' E _ IH|c c1 s ac tr c' E _ IH]; [apply app_nil_r| |].
  - unfold put in E. unfold pending at 1. destruct (waiting c); [discriminate|]. destruct (busy c); injection E as <- <-; cbn in *; [exact IH|now rewrite IH].
  - unfold taken in E. unfold pending at 1. destruct (waiting c); injection E as <- <-; cbn in *; [now rewrite IH|exact IH].
Qed.
Lemma outs_spaced c accepted tr c' : outs c accepted tr c' -> (waiting c <> None -> busy c = true) -> spaced (busy c) tr /\ (waiting c' <> None -> busy c' = true).
Proof.
  induction 1 as [c|c v c1 s ac tr c' E _ IH|c c1 s ac tr c' E _ IH]; intros I; [now split| |].
  - unfold put in E. destruct (waiting c); [discriminate|]. destruct (busy c) eqn:B; injection E as <- <-; destruct (IH ltac:(reflexivity)); cbn in *; auto.
  - unfold taken in E. destruct (waiting c) eqn:WC; injection E as <- <-; cbn in *.
    + assert (BC : busy c = true) by (apply I; discriminate). rewrite BC in *. destruct IH; [congruence|]. auto.
    + destruct IH; [congruence|]. auto.
Qed.

(** ** In runs *)
Section Runs.
Context {Q T D : Type}.
Variable FL : Flavour Q.
Variable ch : SpecIsa.chip T.
Variable absq : Q -> T.
Context (OK : chip_ok FL ch absq).
Variables (dv : dev D) (limit kb : Z) (l0 : list mop) (mm : ralmem) (c : cpu Q) (d : D) (k : tclock).
Hypothesis (KM : kernel_mem kb l0 mm) (W : wf c).
Notation a := (abs absq c).
Notation m := (kview kb (rev l0)).
Lemma run_code : codeR m. Proof. exact (codeR_sees kb _ _ (km_sees kb l0)). Qed.
Lemma run_bytes : bytesR m. Proof. exact (bytesR_sees kb _ _ (km_sees kb l0) (km_bytes kb l0 mm KM)). Qed.
Lemma run_top : 0x4000 <= 0x4000 + kb * 1024 <= 0x10000. Proof. pose proof (km_kb kb l0 mm KM). lia. Qed.
Lemma run_A : 0 <= aA a < 256. Proof. exact (wf_get_acc c W). Qed.
Lemma put_runs : aPC a = 0x10 -> aPX a = None -> aHALT a = false -> 0x4000 <= aSP a <= 0xFFFE ->
  comes FL absq dv limit kb l0 mm c d k (put_post (word_at m (aSP a)) ((aSP a + 2) mod 0x10000) (aBC a) (aDE a) (aHL a) a m).
Proof. intros PC PX NH S. apply (comes_of FL ch absq OK); try assumption. exact (put_goes ch _ run_top a m run_code run_A PX NH S PC). Qed.
Lemma put_again_runs : aPC a = 0x18D -> aHL a = 0x2005 -> aPX a = None -> aHALT a = false -> 0x4000 <= aSP a <= 0xFFFE ->
  comes FL absq dv limit kb l0 mm c d k (put_post (word_at m (aSP a)) ((aSP a + 2) mod 0x10000) (aBC' a) (aDE' a) (aHL' a) a m).
Proof. intros PC HL PX NH S. apply (comes_of FL ch absq OK); try assumption. exact (put_again_goes ch _ run_top a m run_code run_A PX NH S PC HL). Qed.
Lemma put_alone_runs : aPC a = 0x179 -> aHL a = 0x2005 -> aIFF1 a = false -> aPX a = None -> aHALT a = false ->
  comes_alone FL absq dv limit kb l0 mm c d k (put_post 0x188 (aSP a) (aBC' a) (aDE' a) (aHL' a) a m).
Proof. intros PC HL I1 PX NH. apply (alone_of FL ch absq OK); try assumption. exact (put_alone ch _ run_top a m run_code run_A PX NH PC HL I1). Qed.
Lemma get_runs : aPC a = 0x08 -> aPX a = None -> aHALT a = false -> 0x4002 <= aSP a <= 0x4000 + kb * 1024 -> aSP a <= 0xFFFE ->
  comes FL absq dv limit kb l0 mm c d k (get_post (word_at m (aSP a)) ((aSP a + 2) mod 0x10000) (aBC a) (aDE a) (aHL a) a m).
Proof. intros PC PX NH S S2. apply (comes_of FL ch absq OK); try assumption. exact (get_goes ch _ run_top a m run_code run_bytes run_A PX NH S S2 PC). Qed.
Lemma get_again_runs : aPC a = 0x153 -> aHL a = 0x2005 -> aPX a = None -> aHALT a = false -> 0x4002 <= aSP a <= 0x4000 + kb * 1024 -> aSP a <= 0xFFFE ->
  comes FL absq dv limit kb l0 mm c d k (get_post (word_at m (aSP a)) ((aSP a + 2) mod 0x10000) (aBC' a) (aDE' a) (aHL' a) a m).
Proof. intros PC HL PX NH S S2. apply (comes_of FL ch absq OK); try assumption. exact (get_again_goes ch _ run_top a m run_code run_bytes run_A PX NH S S2 PC HL). Qed.
Lemma get_alone_runs : aPC a = 0x13F -> aHL a = 0x2005 -> aIFF1 a = false -> aPX a = None -> aHALT a = false -> 0x4002 <= aSP a <= 0x4000 + kb * 1024 ->
  comes_alone FL absq dv limit kb l0 mm c d k (get_post 0x14E (aSP a) (aBC' a) (aDE' a) (aHL' a) a m).
Proof.
  intros PC HL I1 PX NH S. apply (alone_of FL ch absq OK); try assumption. pose proof (wf_sp c W) as WS. unfold word in WS. 
  exact (get_alone ch _ run_top a m run_code run_bytes run_A PX NH S (proj2 WS) PC HL I1).
Qed.
Lemma run_enabled : aIFF1 a = true -> aEI a = false -> aPX a = None -> int_enabled a = true.
Proof. unfold int_enabled, nmi_enabled. intros -> -> ->. reflexivity. Qed.
Lemma irq_runs : aIFF1 a = true -> aEI a = false -> aPX a = None -> aIM a = Mode2 -> aI a = 1 -> 0x4006 <= aSP a <= 0x4000 + kb * 1024 ->
  answered FL absq dv limit kb l0 mm c d k (irq_post a m).
Proof.
  intros I1 E PX IM I S. apply (irq_of FL ch absq OK); try assumption; [exact (run_enabled I1 E PX)|].
  exact (irq_post_on ch _ run_top a m run_code run_bytes run_A (F_byte absq c W) (wf_hl c W) (wf_pc c W) S (proj2 (wf_sp c W)) IM PX E I).
Qed.
Lemma irq_first_runs : aIFF1 a = true -> aEI a = false -> aPX a = None -> aIM a = Mode2 -> aI a = 1 -> 0x4006 <= aSP a <= 0x4000 + kb * 1024 ->
  answered_alone FL absq dv limit kb l0 mm c d k (irq_first a m).
Proof.
  intros I1 E PX IM I S. apply (irq_alone_of FL ch absq OK); try assumption; [exact (run_enabled I1 E PX)|].
  exact (irq_first_on ch true _ run_top a m run_code run_bytes run_A (F_byte absq c W) (wf_hl c W) (wf_pc c W) (conj (Z.le_trans 0x2016 0x4006 _ ltac:(lia) (proj1 S)) (proj2 S)) (proj2 (wf_sp c W)) IM PX E I false (or_intror (proj1 S))).
Qed.
End Runs.
