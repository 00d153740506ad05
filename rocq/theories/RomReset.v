(** Reset of the example computer, run on the specification. *)
From Coq Require Import ZArith Bool List Lia.
From Verif Require Import Base Parse Cpu Flavours Range Clock RalMemory RalBus SpecRal SpecAlu SpecState SpecIsa AluProofs IsaLink IsaRun Trace Asm RomImage SpecRom RomHoare RomAsm RomIo RomRun SpecLib RomLib SpecReset.
Import ListNotations.
Open Scope Z_scope.

(** Conditions that are decided already. *)
Ltac bits ::= repeat match goal with
  | H : bitn ?x ?i = _ |- context [bitn ?x ?i] => rewrite H
  | H : Cf ?x = _ |- context [Cf ?x] => rewrite H
  | H : Zf ?x = _ |- context [Zf ?x] => rewrite H
  | H : (?x =? 0) = _ |- context [?x =? 0] => rewrite H
  | H : w16 ?x = _ |- context [w16 ?x] => rewrite H end; cbn [negb].
(** The byte [v] is in memory from [lo] up to [h], the rest is [m]. *)
Definition filled (lo h v : Z) (m m1 : mem) : Prop := forall y, m1 y = if (lo <=? y) && (y <? h) then v else m y.
Lemma codeR_filled lo h v m m1 : codeR m -> 0x2000 <= lo -> filled lo h v m m1 -> codeR m1.
Proof. intros C L F y Hy. rewrite F. destruct (Z.leb_spec lo y); [lia|]. apply C. exact Hy. Qed.
Section Test.
Context {T : Type}.
Variable ch : SpecIsa.chip T.
Variable q : bool.
Variable top : Z.
Hypothesis HT : 0x4000 <= top <= 0x10000.
Variable P : arch T -> mem -> list io -> Prop.
Notation goes := (goes (WB:=unit) (RB:=unit) ch q top P).
Variables (m : mem) (sp de i : Z) (x : rest) (im : InterruptMode) (i1 i2 : bool) (o : list io).
Hypothesis (C : codeR m) (QI : q = false \/ i1 = false).
(** One pass over the memory of the kernel: [n] bytes are left. *)
Lemma pass v n : 0 <= v < 256 -> forall m1 h b c f e (j : junk3 T), 0x2000 <= h -> h + Z.of_nat n = 0x4000 -> (0 < n)%nat ->
  0 <= b < 256 -> 1 <= c < 256 -> Z.of_nat n = 256 * (c - 1) + (if b =? 0 then 256 else b) -> filled 0x2000 h v m m1 ->
  (forall m2 f j, filled 0x2000 0x4000 v m m2 -> goes (Sr 0x44B sp v f 0 de 0x4000 x (mkCtl i im i1 i2 false) j) m2 o) ->
  goes (Sr 0x441 sp v f (word_of b c) de h x (mkCtl i im i1 i2 e) j) m1 o.
Proof.
  intros V. induction n as [|n IH]; intros m1 h b c f e j H1 H2 N B CC E F K; [lia|].
  assert (C1 := codeR_filled _ _ _ _ _ C (Z.le_refl 0x2000) F). assert (QI' := QI).
  istep.
  assert (F2 : filled 0x2000 (h + 1) v m (mupd m1 h v)).
  { intros y. unfold mupd. destruct (Z.eqb_spec y h) as [->|N1]; [destruct (Z.leb_spec 0x2000 h), (Z.ltb_spec h (h + 1)); cbn [andb]; lia|].
    rewrite F. destruct (Z.leb_spec 0x2000 y), (Z.ltb_spec y (h + 1)), (Z.ltb_spec y h); cbn [andb]; try reflexivity; lia. }
  set (m2 := mupd m1 h v) in *. assert (C2 := codeR_filled _ _ _ _ _ C (Z.le_refl 0x2000) F2).
  assert (EV : m2 h = v) by (unfold m2, mupd; now rewrite Z.eqb_refl). clearbody m2.
  istep. rewrite EV. pose proof (Zf_cp v v V V) as ZF. rewrite Z.eqb_refl in ZF. set (f2 := s_cp v v) in *. clearbody f2.
  istep. istep.
  destruct (Z.eqb_spec b 0) as [->|B0].
  { change (0 =? 0) with true in E. istep. apply (IH m2 (h + 1) 255 c); try assumption; try lia; change (255 =? 0) with false; lia. }
  replace (b =? 0) with false in E by lia.
  destruct (Z.eqb_spec b 1) as [->|B1].
  - istep. destruct (Z.eqb_spec c 1) as [->|C0].
    + do 2 istep. replace (h + 1) with 0x4000 in * by lia. apply K. exact F2.
    + assert (CZ : (c - 1 =? 0) = false) by lia. istep.
      match goal with |- context [snd (s_dec ?u ?g)] => pose proof (Zf_dec u g) as ZD; rewrite w8_id, CZ in ZD by lia; set (f3 := snd (s_dec u g)) in *; clearbody f3 end.
      istep. apply (IH m2 (h + 1) 0 (c - 1)); try assumption; try lia; change (0 =? 0) with true; lia.
  - assert (BZ : (b - 1 =? 0) = false) by lia. istep. apply (IH m2 (h + 1) (b - 1) c); try assumption; try lia. rewrite BZ. lia.
Qed.
End Test.
Lemma filled_trans lo h v v' m m1 m2 : filled lo h v m m1 -> filled lo h v' m1 m2 -> filled lo h v' m m2.
Proof. intros F1 F2 y. rewrite F2, F1. destruct ((lo <=? y) && (y <? h)); reflexivity. Qed.
Lemma filled_none lo v m : filled lo lo v m m.
Proof. intros y. destruct (Z.leb_spec lo y), (Z.ltb_spec y lo); cbn [andb]; try reflexivity; lia. Qed.
Section Reset.
Context {T : Type}.
Variable ch : SpecIsa.chip T.
Variable q : bool.
Variable top : Z.
Hypothesis HT : 0x4000 <= top <= 0x10000.
Variable P : arch T -> mem -> list io -> Prop.
Notation goes := (goes (WB:=unit) (RB:=unit) ch q top P).
Variables (sp de i : Z) (x : rest) (im : InterruptMode) (i1 i2 : bool) (o : list io).
Lemma one_pass v m f bc hl e (j : junk3 T) : codeR m -> q = false \/ i1 = false -> 0 <= v < 256 ->
  (v <> 0 -> forall m2 f j, filled 0x2000 0x4000 v m m2 -> codeR m2 -> goes (Sr 0x43B sp ((v + v) mod 256) f 0 de 0x4000 x (mkCtl i im i1 i2 false) j) m2 o) ->
  (v = 0 -> forall m2 f j, filled 0x2000 0x4000 0 m m2 -> codeR m2 -> Zf f = true -> goes (Sr 0x451 sp 0 f 0 de 0x4000 x (mkCtl i im i1 i2 false) j) m2 o) ->
  goes (Sr 0x43B sp v f bc de hl x (mkCtl i im i1 i2 e) j) m o.
Proof.
  intros C QI V K1 K2. istep. istep. change 0x20 with (word_of 0 0x20).
  apply (pass ch q top HT P m sp de i x im i1 i2 o C QI v (Z.to_nat 8192) V); try lia; [change (0 =? 0) with true; lia|apply filled_none|].
  intros m2 f2 jP F. assert (C2 := codeR_filled _ _ _ _ _ C (Z.le_refl 0x2000) F).
  istep. pose proof (Zf_or v v) as ZF. rewrite or_lor, Z.lor_diag in ZF by assumption. rewrite or_lor, Z.lor_diag by assumption. set (f3 := snd _) in *. clearbody f3.
  destruct (Z.eqb_spec v 0) as [V0|V0].
  - istep. subst v. apply K2; try assumption; reflexivity.
  - istep. istep. rewrite fst_add. set (f4 := snd _). clearbody f4. istep. apply K1; assumption.
Qed.
Lemma passes m : codeR m -> q = false \/ i1 = false ->
  (forall m2 f j, filled 0x2000 0x4000 0 m m2 -> codeR m2 -> Zf f = true -> goes (Sr 0x451 sp 0 f 0 de 0x4000 x (mkCtl i im i1 i2 false) j) m2 o) ->
  forall a f bc hl e (j : junk3 T), goes (Sr 0x439 sp a f bc de hl x (mkCtl i im i1 i2 e) j) m o.
Proof.
  intros C QI K a f bc hl e j. istep.
  apply one_pass; [exact C|exact QI|lia| |lia]. intros _ m1 f1 jP F1 C1. wnum.
  Ltac again := match goal with F1 : filled _ _ _ ?m ?m1, C1 : codeR ?m1 |- _ ?m1 _ =>
    match goal with |- context [(?v + ?w) mod 256] => let u := eval vm_compute in ((v + w) mod 256) in change ((v + w) mod 256) with u end;
    apply one_pass; [exact C1|assumption|lia|try lia|try lia];
    let m2 := fresh "m" in let f2 := fresh "f" in let j2 := fresh "j" in let F2 := fresh "F" in let C2 := fresh "C" in let F3 := fresh "G" in
    intros _ m2 f2 j2 F2 C2; assert (F3 := filled_trans _ _ _ _ _ _ _ F1 F2); clear F1 F2 C1 end.
  do 8 again. intros ZF. apply K; assumption.
Qed.
End Reset.

Lemma every_byte (p : Z -> bool) : forallb p (map Z.of_nat (seq 0 256)) = true -> forall v, 0 <= v < 256 -> p v = true.
Proof. intros H v V. rewrite forallb_forall in H. apply H. apply in_map_iff. exists (Z.to_nat v). split; [lia|]. apply in_seq. lia. Qed.
Lemma Zf_and1 v : 0 <= v < 256 -> Zf (snd (s_and v 1)) = negb (bitn v 0).
Proof. intros V. apply eqb_prop. apply (every_byte (fun v => eqb (Zf (snd (s_and v 1))) (negb (bitn v 0)))); [vm_compute; reflexivity|exact V]. Qed.
Lemma res0 v : 0 <= v < 256 -> s_res 0 v = v - (if bitn v 0 then 1 else 0).
Proof. intros V. apply Z.eqb_eq. apply (every_byte (fun v => s_res 0 v =? v - (if bitn v 0 then 1 else 0))); [vm_compute; reflexivity|exact V]. Qed.
Section Periph.
Context {T : Type}.
Variable ch : SpecIsa.chip T.
Variable q : bool.
Variable top : Z.
Hypothesis HT : 0x4000 <= top <= 0x10000.
Variable P : arch T -> mem -> list io -> Prop.
Notation goes := (goes (WB:=unit) (RB:=unit) ch q top P).
Lemma periph m sp a f bc de hl i x im i1 i2 o e (j : junk3 T) : codeR m -> q = false \/ i1 = false -> 0x2000 <= sp <= 0xFFFE ->
  (forall j, goes (Sr (word_of (m (sp + 1)) (m sp)) (w16 (sp + 2)) 0x83 f bc de hl x (mkCtl i Mode2 i1 i2 false) j) m (o ++ set_up)) ->
  goes (Sr 0x40A sp a f bc de hl x (mkCtl i im i1 i2 e) j) m o.
Proof.
  intros C QI S K. istep. 
  do 23 istep. repeat rewrite <- app_assoc. cbn [app]. apply K.
Qed.
(** From the end of the test of the kernel's memory to the greeting. *)
Lemma reset_451 m sp f bc de i x im i2 o e (j : junk3 T) : codeR m -> Zf f = true ->
  (forall f j m2, (forall y, 0x3FFE <= y < 0x4000 \/ m2 y = m y) -> codeR m2 ->
    goes (Sr 0x45B 0x4000 0x83 f bc de 0x4000 x (mkCtl i Mode2 true true true) j) m2 (o ++ IOut 124 0 :: set_up)) ->
  goes (Sr 0x451 sp 0 f bc de 0x4000 x (mkCtl i im false i2 e) j) m o.
Proof.
  intros C ZF K. assert (QI : q = false \/ false = false) by (right; reflexivity). do 4 istep. setm m1 E1 C1.
  apply periph; [exact C1|exact QI|lia|]. intros jA. wnum. at_mem E1. wnum. istep. rewrite <- app_assoc. apply K; [|exact C1].
  intros y. rewrite E1. destruct (Z.eqb_spec y 16382); [left; lia|]. destruct (Z.eqb_spec y 16383); [left; lia|right; reflexivity].
Qed.
(** To the menu. *)
Lemma menu_40 m sp a f bc de hl i x im e (j : junk3 T) s s2 : codeR m -> w16 (word_of (m 0x2009) (m 0x2008) + 1) = s -> w16 (s - 2) = s2 -> w16 (s - 1) = s2 + 1 -> w16 (s2 + 2) = s ->
  0x4000 <= s2 -> s2 + 1 < top ->
  (forall f j m2 a' hl', (forall y, y = 0x2005 \/ s2 <= y < s2 + 2 \/ m2 y = m y) -> m2 0x2005 = 0 -> codeR m2 ->
    goes (Sr 0x557 s a' f bc de hl' x (mkCtl 1 Mode2 true true false) j) m2 (set_up ++ [IReti; IReti])) ->
  goes (Sr 0x40 sp a f bc de hl x (mkCtl i im false false e) j) m [].
Proof.
  intros C ES E2 E1 E3 S2 S3 K. assert (QI : q = false \/ false = false) by (right; reflexivity).
  do 6 istep. setm m1 F1 C1.
  apply periph; [exact C1|exact QI|lia|]. intros jA. rewrite E3. rewrite !F1. at_mem F1. wnum. rewrite app_nil_l.
  istep. rewrite xor_self. set (f1 := snd _). clearbody f1. istep. setm m2 F2 C2.
  istep. setm m3 F3 C3. istep. rewrite !F3. at_mem F3. wnum.
  istep. setm m4 F4 C4. istep. rewrite !F4. at_mem F4. wnum.
  do 2 istep. rewrite <- app_assoc. apply K; [| |exact C4].
  - intros y. rewrite F4, F3, F2, F1. destruct (Z.eq_dec y 0x2005); [now left|]. destruct (Z.eq_dec y s2); [right; left; lia|]. destruct (Z.eq_dec y (s2 + 1)); [right; left; lia|].
    right. right. repeat (match goal with |- context [(?u =? ?v)] => destruct (Z.eqb_spec u v); [exfalso; lia|] end). reflexivity.
  - rewrite F4, F3, F2. repeat (match goal with |- context [(8197 =? ?v)] => destruct (Z.eqb_spec 8197 v); [try reflexivity; exfalso; lia|] end). lia.
Qed.
Lemma abort_38 m sp a f bc de hl i x im i1 i2 e (j : junk3 T) : codeR m -> bytesR m -> q = false \/ i1 = false -> 0x4000 <= sp <= 0xFFFB ->
  (bitn (m 0x2007) 0 = true -> forall a f j, Zf f = false -> goes (Sr (word_at m (sp + 2)) (w16 (sp + 4)) a f bc de hl x (mkCtl i im i1 i2 false) j) m []) ->
  (bitn (m 0x2007) 0 = false -> forall a f j, goes (Sr 0x40 (sp + 2) a f bc de hl x (mkCtl i im false false false) j) m []) ->
  goes (Sr 0x38 sp a f bc de hl x (mkCtl i im i1 i2 e) j) m [].
Proof.
  intros C Y QI S K1 K2. do 3 istep. assert (Y7 := Y 0x2007 ltac:(lia)). pose proof (Zf_and1 _ Y7) as ZF. set (f1 := snd _) in *. set (a1 := fst _) in *. clearbody f1 a1.
  destruct (bitn (m 0x2007) 0) eqn:B; cbn [negb] in ZF.
  - istep. specialize (K1 eq_refl a1 f1). unfold word_at, word_of in *. replace (sp + 2 + 1) with (sp + 3) in * by lia. replace (sp + 2 + 2) with (sp + 4) in * by lia.
    rewrite w16_id in K1 by lia. replace (256 * m (sp + 3) + m (sp + 2)) with (m (sp + 2) + 256 * m (sp + 3)) by lia. apply K1. exact ZF.
  - do 2 istep. apply K2. reflexivity.
Qed.
Lemma nmi_66 m sp a f bc de hl i x im i2 e (j : junk3 T) : codeR m -> 0 <= a < 256 -> 0 <= f < 256 -> 0 <= hl < 0x10000 -> 0x4004 <= sp <= top -> sp <= 0xFFFE ->
  (bitn (m 0x2007) 1 = false -> forall j m1, (forall y, sp - 4 <= y < sp \/ m1 y = m y) -> goes (Sr (word_at m sp) (w16 (sp + 2)) a f bc de hl x (mkCtl i im i2 i2 false) j) m1 []) ->
  (bitn (m 0x2007) 1 = true -> forall a f hl j m1, (forall y, y = 0x2007 \/ sp - 4 <= y < sp \/ m1 y = m y) -> m1 0x2007 = s_res 0 (m 0x2007) -> goes (Sr 0x40 (sp - 4) a f bc de hl x (mkCtl i im false false false) j) m1 []) ->
  goes (Sr 0x66 sp a f bc de hl x (mkCtl i im false i2 e) j) m [].
Proof.
  intros C A F HL S S' K1 K2. assert (QI : q = false \/ false = false) by (right; reflexivity).
  istep. setm m1 F1 C1. istep. setm m2 F2 C2. replace (sp - 2 - 2) with (sp - 4) in * by lia.
  assert (U : forall y, sp - 4 <= y < sp \/ m2 y = m y).
  { intros y. rewrite F2, F1. repeat (match goal with |- context [(?u =? ?v)] => destruct (Z.eqb_spec u v); [left; lia|] end). right. reflexivity. }
  assert (E7 : m2 0x2007 = m 0x2007) by (destruct (U 0x2007); [lia|assumption]).
  do 2 istep. pose proof (Zf_bit 1 (m2 0x2007) (hi (nWZ j)) f) as ZF. rewrite E7 in *.
  match goal with |- context [s_bit 1 (m 8199) ?u f] => pose proof (Zf_bit 1 (m 8199) u f) as ZG; set (f1 := s_bit 1 (m 8199) u f) in *; clearbody f1 end. clear ZF.
  destruct (bitn (m 0x2007) 1) eqn:B; cbn [negb] in ZG.
  - istep. istep. rewrite E7. setm m3 F3 C3. do 2 istep. apply K2; [reflexivity| |].
    + intros y. rewrite F3. destruct (Z.eqb_spec y 8199); [now left|]. destruct (U y); auto.
    + rewrite F3. reflexivity.
  - assert (V4 : m2 (sp - 4) = f) by (rewrite F2; at_mem F1; reflexivity). assert (V3 : m2 (sp - 4 + 1) = a) by (rewrite F2; at_mem F1; reflexivity).
    assert (V2 : m2 (sp - 4 + 2) = lo hl) by (rewrite F2, F1; at_mem F1; reflexivity). assert (V1 : m2 (sp - 4 + 2 + 1) = hi hl) by (rewrite F2, F1; at_mem F1; reflexivity).
    do 4 istep. rewrite V4, V3, V2, V1. replace (sp - 4 + 2 + 2 + 1) with (sp + 1) by lia. replace (sp - 4 + 2 + 2 + 2) with (sp + 2) by lia. replace (sp - 4 + 2 + 2) with sp by lia.
    words. assert (VS : forall y, sp <= y -> m2 y = m y) by (intros y Hy; destruct (U y); [lia|assumption]). rewrite !VS by lia.
    specialize (K1 eq_refl). unfold word_at in K1. replace (word_of (m (sp + 1)) (m sp)) with (m sp + 256 * m (sp + 1)) by (unfold word_of; lia). apply K1. exact U.
Qed.
End Periph.

Section Goes.
Context {T : Type}.
Variable ch : SpecIsa.chip T.
Variable top : Z.
Hypothesis HT : 0x4000 <= top <= 0x10000.
Variables (a0 : arch T) (m : mem).
Hypothesis (C : codeR m) (Y : bytesR m) (A : 0 <= aA a0 < 256) (F : 0 <= aF a0 < 256) (HL : 0 <= aHL a0 < 0x10000) (PX : aPX a0 = None) (NH : aHALT a0 = false).
Ltac is_a0 PC := rewrite (state_is a0 PX), NH, PC; unfold ctl_of.
Lemma reset_off : aPC a0 = 0 -> goes (WB:=unit) (RB:=unit) ch false top (off 1 a0 m) a0 m [].
Proof.
  intros PC. is_a0 PC. istep. apply g_now. split; [reflexivity|]. split; [intros y _ _; reflexivity|]. repeat (split; [reflexivity|]). reflexivity.
Qed.
Lemma reset_alone : aPC a0 = 1 -> aIFF1 a0 = false -> goes (WB:=unit) (RB:=unit) ch true top (reset_post m) a0 m [].
Proof.
  intros PC I1. is_a0 PC. rewrite I1. do 3 istep. apply passes; [exact HT|exact C|right; reflexivity|]. intros m1 f1 jA F1 C1 Z1.
  apply reset_451; [exact HT|exact C1|exact Z1|]. intros f2 jB m2 M2 C2. apply g_now. split; [reflexivity|]. split.
  - intros y Hy. destruct (M2 y) as [E|E]; [lia|]. rewrite E, F1. replace ((0x2000 <=? y) && (y <? 0x4000)) with true by lia. reflexivity.
  - split; [|repeat (split; [reflexivity|]); reflexivity]. intros y Hy N. destruct (M2 y) as [E|E]; [lia|]. rewrite E, F1.
    destruct ((0x2000 <=? y) && (y <? 0x4000)) eqn:E1; [lia|reflexivity].
Qed.
Hypothesis RT : 0x4001 <= word_at m 0x2008 < top.
Notation s := ((word_at m 0x2008 + 1) mod 0x10000).
Notation r := (word_at m 0x2008).
Lemma top_s : w16 (word_of (m 0x2009) (m 0x2008) + 1) = s /\ w16 (s - 2) = r - 1 /\ w16 (s - 1) = r - 1 + 1 /\ w16 (r - 1 + 2) = s.
Proof.
  change (word_at m 0x2008) with (m 0x2008 + 256 * m 0x2009) in *. unfold w16, word_of. set (u := m 0x2008 + 256 * m 0x2009) in *.
  replace (256 * m 0x2009 + m 0x2008) with u by (unfold u; lia). clearbody u.
  destruct (Z.eq_dec u 0xFFFF) as [->|N]; [vm_compute; auto|]. rewrite (Z.mod_small (u + 1)) by lia. rewrite !Z.mod_small by lia. lia.
Qed.
Lemma menu_of (q : bool) (P : arch T -> mem -> list io -> Prop) m1 sp a f bc de hl i x im e (j : junk3 T) fl : codeR m1 ->
  m1 0x2008 = m 0x2008 -> m1 0x2009 = m 0x2009 -> m1 0x2007 = fl ->
  (forall a' m' o, menu_post m a' m' o fl -> (forall y, y = 0x2005 \/ at_top m y \/ m' y = m1 y) -> aBC a' = bc -> P a' m' o) ->
  goes (WB:=unit) (RB:=unit) ch q top P (Sr 0x40 sp a f bc de hl x (mkCtl i im false false e) j) m1 [].
Proof.
  intros C1 E8 E9 E7 K. destruct top_s as (T1 & T2 & T3 & T4). apply (menu_40 ch q top HT P m1) with (s := s) (s2 := r - 1); try assumption; try lia; [rewrite E8, E9; exact T1|].
  intros f1 j1 m2 a1 hl1 U Z2 C2. apply g_now. apply K; [| |reflexivity].
  - split; [reflexivity|]. unfold out_of, in_of, bit_at. rewrite Z2. cbn [Z.testbit]. split; [reflexivity|]. split; [reflexivity|].
    split; [destruct (U 0x2007) as [E|[E|E]]; [lia|lia|congruence]|]. repeat (split; [reflexivity|]). reflexivity.
  - intros y. unfold at_top. destruct (U y) as [E|[E|E]]; [now left|right; left; lia|right; right; exact E].
Qed.
Lemma abort_goes : aPC a0 = 0x38 -> 0x4000 <= aSP a0 <= 0xFFFB -> goes (WB:=unit) (RB:=unit) ch false top (abort_post a0 m) a0 m [].
Proof.
  intros PC S. set (P := abort_post a0 m). is_a0 PC. apply abort_38; try assumption; [left; reflexivity| |]; intros B a f j.
  - intros ZF. apply g_now. unfold P, abort_post, bit_at. unfold bitn in B. rewrite B. split; [reflexivity|]. split; [intros y _ _; reflexivity|]. split; [exact ZF|].
    repeat (split; [reflexivity|]). reflexivity.
  - apply (menu_of false P m) with (fl := m 0x2007); try assumption; try reflexivity. intros a' m' o MP U _. unfold P, abort_post, bit_at. unfold bitn in B. rewrite B.
    split; [exact MP|]. intros y _ N. destruct (U y) as [E|[E|E]]; [exfalso; apply N; now left|exfalso; apply N; now right|exact E].
Qed.
Lemma abort_off : aPC a0 = 0x38 -> 0x4000 <= aSP a0 <= 0xFFFB -> bit_at m 0x2007 0 = false ->
  goes (WB:=unit) (RB:=unit) ch false top (fun a' m' o => still m m' o /\ aPC a' = 0x40 /\ aIFF1 a' = false /\ aIFF2 a' = false /\ aHALT a' = false /\ aPX a' = None) a0 m [].
Proof.
  intros PC S B0. set (P := fun a' m' o => _ : Prop). is_a0 PC. apply abort_38; try assumption; [left; reflexivity| |]; intros B a f j; [unfold bitn in B; unfold bit_at in B0; congruence|].
  apply g_now. unfold P. split; [split; [reflexivity|]; intros y _ _; reflexivity|]. repeat (split; [reflexivity|]). reflexivity.
Qed.
Lemma menu_alone : aPC a0 = 0x40 -> aIFF1 a0 = false -> aIFF2 a0 = false ->
  goes (WB:=unit) (RB:=unit) ch true top (fun a' m' o => menu_post m a' m' o (m 0x2007) /\ same_but (fun y => y = 0x2005 \/ at_top m y) m m') a0 m [].
Proof.
  intros PC I1 I2. set (P := fun a' m' o => _ : Prop). is_a0 PC. rewrite I1, I2. apply (menu_of true P m) with (fl := m 0x2007); try assumption; try reflexivity.
  intros a' m' o MP U _. unfold P. split; [exact MP|]. intros y _ N. destruct (U y) as [E|[E|E]]; [exfalso; apply N; now left|exfalso; apply N; now right|exact E].
Qed.
Lemma nmi_alone : aPC a0 = 0x66 -> aIFF1 a0 = false -> 0x4004 <= aSP a0 <= top -> aSP a0 <= 0xFFFE -> goes (WB:=unit) (RB:=unit) ch true top (nmi_post a0 m) a0 m [].
Proof.
  intros PC I1 S S'. set (P := nmi_post a0 m). is_a0 PC. rewrite I1. apply nmi_66; try assumption.
  - intros B j m1 U. apply g_now. unfold P, nmi_post, bit_at. unfold bitn in B. rewrite B. split; [reflexivity|].
    split; [intros y _ N; destruct (U y); [contradiction|assumption]|]. repeat (split; [reflexivity|]). reflexivity.
  - intros B a f hl j m1 U E7. assert (Y7 := Y 0x2007 ltac:(lia)). assert (C1 : codeR m1) by (intros y Hy; destruct (U y) as [E|[E|E]]; [lia|lia|rewrite E; apply C; exact Hy]).
    apply (menu_of true P m1) with (fl := m 0x2007 - (if bitn (m 0x2007) 0 then 1 else 0)); try assumption.
    + destruct (U 0x2008) as [E|[E|E]]; [lia|lia|exact E].
    + destruct (U 0x2009) as [E|[E|E]]; [lia|lia|exact E].
    + rewrite E7. apply res0. exact Y7.
    + intros a' m' o MP V _. unfold P, nmi_post, bit_at. unfold bitn in B, MP. rewrite B. split; [exact MP|]. intros y _ N.
      destruct (V y) as [E|[E|E]]; [tauto|tauto|]. destruct (U y) as [E'|[E'|E']]; [tauto|tauto|congruence].
Qed.
End Goes.
