(** The interrupt handlers and the character input and output of the kernel of the example computer
    (examples/ral1243/rom/ral1243_rom.rb:225-241, 311-422), run on the specification. *)
From Coq Require Import ZArith Bool List Lia.
From Verif Require Import Base Parse Clock RalMemory RalBus SpecRal SpecAlu SpecState SpecIsa AluProofs IsaRun Trace Asm RomImage SpecRom RomHoare RomAsm.
Import ListNotations.
Open Scope Z_scope.

Lemma Zf_or32 a : 0 <= a < 256 -> Zf (snd (s_or a 32)) = false.
Proof.
  intros A. unfold s_or, s_logic. cbn [snd]. unfold flags_szxy. rewrite (proj1 (proj2 (flag_bits _ _ _ _ _ _ _ _))).
  apply Z.eqb_neq. intros E. pose proof (of_bits_testbit (fun i => bitn a i || bitn 32 i) 5 ltac:(lia)) as B. rewrite E in B.
  cbn beta in B. change (bitn 32 5) with true in B. rewrite orb_true_r in B. discriminate B.
Qed.

Lemma bytesR_upd m a v : bytesR m -> 0 <= v < 256 -> bytesR (mupd m a v).
Proof. intros H V x X. unfold mupd. destruct (x =? a); [exact V|exact (H x X)]. Qed.

Section K.
Context {T WB RB : Type}.
Variable ch : SpecIsa.chip T.
Variable q : bool.
Variable top : Z.
Hypothesis HT : 0x4000 <= top <= 0x10000.
Variable P : arch T -> mem -> list io -> Prop.
Notation goes := (goes (WB:=WB) (RB:=RB) ch q top P).
Notation swapped x bc de hl := (mkRest (rAF x) bc de hl (rIX x) (rIY x)).
Notation flg := 0x2005.

(** RST 10h up to and with DI. *)
Lemma put_start sp a f bc de hl x i im i1 i2 e (j : junk3 T) m o : (q = false \/ i1 = false) -> codeR m ->
  (forall j e, goes (Sr 0x179 sp a f (rBC x) (rDE x) flg (swapped x bc de hl) (mkCtl i im false false e) j) m o) ->
  goes (Sr 0x10 sp a f bc de hl x (mkCtl i im i1 i2 e) j) m o.
Proof. intros Hq C K. do 4 istep. apply K. Qed.
(** Back in the loop after HALT. *)
Lemma put_again sp a f bc de hl x i im i1 i2 e (j : junk3 T) m o : (q = false \/ i1 = false) -> codeR m ->
  (forall j e, goes (Sr 0x179 sp a f bc de hl x (mkCtl i im false false e) j) m o) ->
  goes (Sr 0x18D sp a f bc de hl x (mkCtl i im i1 i2 e) j) m o.
Proof. intros Hq C K. do 2 istep. apply K. Qed.
Lemma put_now sp a f bc de x i im i1 i2 e (j : junk3 T) m o : (q = false \/ i1 = false) -> codeR m -> 0 <= a < 256 -> bitn (m flg) 2 = false -> bitn (m flg) 3 = false ->
  (forall j f, Zf f = true -> goes (Sr 0x188 sp a f (rBC x) (rDE x) (rHL x) (swapped x bc de flg) (mkCtl i im true true false) j)
     (mupd m flg (s_set 3 (m flg))) (o ++ [IOut (word_of a 10) a])) ->
  goes (Sr 0x179 sp a f bc de flg x (mkCtl i im i1 i2 e) j) m o.
Proof.
  intros Hq C A R F K. do 5 istep. setm m1 E1 C1. do 5 istep. apply K. rewrite Zf_cp by lia. apply Z.eqb_refl.
Qed.
Lemma put_later sp a f bc de x i im i1 i2 e (j : junk3 T) m o : (q = false \/ i1 = false) -> codeR m -> 0 <= a < 256 -> bitn (m flg) 2 = false -> bitn (m flg) 3 = true ->
  (forall j f, Zf f = true -> goes (Sr 0x188 sp a f (rBC x) (rDE x) (rHL x) (swapped x bc de 0x2006) (mkCtl i im true true false) j)
     (mupd (mupd m flg (s_set 2 (m flg))) 0x2006 a) o) ->
  goes (Sr 0x179 sp a f bc de flg x (mkCtl i im i1 i2 e) j) m o.
Proof.
  intros Hq C A R F K. do 5 istep. setm m1 E1 C1. do 2 istep. setm m2 E2 C2. do 3 istep. apply K. rewrite Zf_cp by lia. apply Z.eqb_refl.
Qed.
Lemma put_full sp a f bc de x i im i1 i2 e (j : junk3 T) m o : (q = false \/ i1 = false) -> codeR m -> bitn (m flg) 2 = true -> Cf f = true ->
  (forall j f, Zf f = false -> goes (Sr 0x188 sp a f (rBC x) (rDE x) (rHL x) (swapped x bc de flg) (mkCtl i im true true false) j) m o) ->
  goes (Sr 0x179 sp a f bc de flg x (mkCtl i im i1 i2 e) j) m o.
Proof.
  intros Hq C R F K. do 5 istep. apply K. rewrite Zf_bit, R. reflexivity.
Qed.
Lemma put_wait sp a f bc de x i im i1 i2 e (j : junk3 T) m o : (q = false \/ i1 = false) -> codeR m -> bitn (m flg) 2 = true -> Cf f = false ->
  (forall j f, Cf f = false -> goes (Hr 0x18C sp a f bc de flg x (mkCtl i im true true false) j) m o) ->
  goes (Sr 0x179 sp a f bc de flg x (mkCtl i im i1 i2 e) j) m o.
Proof.
  intros Hq C R F K. do 5 istep. apply K. now rewrite Cf_bit.
Qed.
Lemma ret_from pc sp a f bc de hl x i im i1 i2 e (j : junk3 T) m o : (q = false \/ i1 = false) -> codeR m -> pc = 0x188 \/ pc = 0x14E -> 0x4000 <= sp -> sp + 2 <= 0x10000 ->
  (forall j, goes (Sr (word_of (m (sp + 1)) (m sp)) (w16 (sp + 2)) a f bc de hl x (mkCtl i im i1 i2 false) j) m o) ->
  goes (Sr pc sp a f bc de hl x (mkCtl i im i1 i2 e) j) m o.
Proof.
  intros Hq C [-> | ->] S1 S2 K; istep; apply K.
Qed.
(** The stack: a word pushed. *)
Definition pushed (sp w : Z) (m : mem) : mem := mupd (mupd m (sp - 1) (hi w)) (sp - 2) (lo w).

(** The interrupt of the output port: the part that is not interrupted. *)
Lemma out_more sp a f bc de hl x i im (j : junk3 T) m o : codeR m -> 0 <= a < 256 -> 0 <= f < 256 -> 0 <= hl < 0x10000 -> 0x2014 <= sp <= top ->
  bitn (m flg) 2 = true ->
  (forall j b g m', codeR m' -> (forall y, y < sp - 4 \/ sp <= y -> y <> flg -> m' y = m y) -> m' (sp - 1) = a -> m' (sp - 2) = f -> m' flg = s_res 2 (m flg) ->
     goes (Sr 0x171 (sp - 2) b g bc de hl x (mkCtl i im true true false) j) m' (o ++ [IOut (word_of (m 0x2006) 10) (m 0x2006)])) ->
  goes (Sr 0x160 sp a f bc de hl x (mkCtl i im false false false) j) m o.
Proof.
  intros C A F H B R K. istep. setm m1 E1 C1. istep. setm m2 E2 C2.
  assert (G : m2 flg = m flg) by (at_mem E2; at_mem E1; reflexivity). rewrite <- G in R. do 4 istep. setm m3 E3 C3. do 5 istep.
  assert (G' : m3 0x2006 = m 0x2006) by (at_mem E3; at_mem E2; at_mem E1; reflexivity).
  rewrite !G'. assert (L : m3 (sp - 2 - 2) = lo hl) by (at_mem E3; at_mem E2; reflexivity).
  assert (U : m3 (sp - 2 - 2 + 1) = hi hl) by (at_mem E3; at_mem E2; reflexivity).
  rewrite L, U, word_hi_lo. replace (sp - 2 - 2 + 2) with (sp - 2) by lia.
  apply K; [exact C3|..]; [intros y Y1 Y2| | |]; at_mem E3; at_mem E2; at_mem E1; congruence.
Qed.
Lemma out_idle sp a f bc de hl x i im (j : junk3 T) m o : codeR m -> 0 <= a < 256 -> 0 <= f < 256 -> 0 <= hl < 0x10000 -> 0x2014 <= sp <= top ->
  bitn (m flg) 2 = false ->
  (forall j b g m', codeR m' -> (forall y, y < sp - 4 \/ sp <= y -> y <> flg -> m' y = m y) -> m' (sp - 1) = a -> m' (sp - 2) = f -> m' flg = s_res 3 (m flg) ->
     goes (Sr 0x171 (sp - 2) b g bc de hl x (mkCtl i im true true false) j) m' o) ->
  goes (Sr 0x160 sp a f bc de hl x (mkCtl i im false false false) j) m o.
Proof.
  intros C A F H B R K. istep. setm m1 E1 C1. istep. setm m2 E2 C2.
  assert (G : m2 flg = m flg) by (at_mem E2; at_mem E1; reflexivity). rewrite <- G in R. do 4 istep. setm m3 E3 C3. do 3 istep.
  assert (L : m3 (sp - 2 - 2) = lo hl) by (at_mem E3; at_mem E2; reflexivity).
  assert (U : m3 (sp - 2 - 2 + 1) = hi hl) by (at_mem E3; at_mem E2; reflexivity).
  rewrite L, U, word_hi_lo. replace (sp - 2 - 2 + 2) with (sp - 2) by lia.
  apply K; [exact C3|..]; [intros y Y1 Y2| | |]; at_mem E3; at_mem E2; at_mem E1; congruence.
Qed.
(** The interrupt of the input port. *)
Lemma in_first sp a f bc de hl x i im (j : junk3 T) m o : codeR m -> 0 <= a < 256 -> 0 <= f < 256 -> 0 <= hl < 0x10000 -> 0x2014 <= sp <= top ->
  bitn (m flg) 1 = false ->
  (forall j b g m' v, 0 <= v < 256 -> codeR m' -> (forall y, y < sp - 4 \/ sp <= y -> y <> flg -> y <> 0x2004 -> m' y = m y) -> m' (sp - 1) = a -> m' (sp - 2) = f ->
     m' flg = s_set 1 (m flg) -> m' 0x2004 = v ->
     goes (Sr 0x137 (sp - 2) b g bc de hl x (mkCtl i im true true false) j) m' (o ++ [IIn (word_of a 8) v])) ->
  goes (Sr 0x126 sp a f bc de hl x (mkCtl i im false false false) j) m o.
Proof.
  intros C A F H B R K. istep. setm m1 E1 C1. istep. setm m2 E2 C2.
  assert (G : m2 flg = m flg) by (at_mem E2; at_mem E1; reflexivity). rewrite <- G in R. do 5 istep. setm m3 E3 C3. do 2 istep. setm m4 E4 C4. do 2 istep.
  assert (L : m4 (sp - 2 - 2) = lo hl) by (at_mem E4; at_mem E3; at_mem E2; reflexivity).
  assert (U : m4 (sp - 2 - 2 + 1) = hi hl) by (at_mem E4; at_mem E3; at_mem E2; reflexivity).
  rewrite L, U, word_hi_lo. replace (sp - 2 - 2 + 2) with (sp - 2) by lia.
  apply K; [exact Hv|exact C4|..]; [intros y Y1 Y2 Y3| | | |]; at_mem E4; at_mem E3; at_mem E2; at_mem E1; congruence.
Qed.
Lemma in_next sp a f bc de hl x i im (j : junk3 T) m o : codeR m -> 0 <= a < 256 -> 0 <= f < 256 -> 0 <= hl < 0x10000 -> 0x2014 <= sp <= top ->
  bitn (m flg) 1 = true ->
  (forall j b g m', codeR m' -> (forall y, y < sp - 4 \/ sp <= y -> y <> flg -> m' y = m y) -> m' (sp - 1) = a -> m' (sp - 2) = f -> m' flg = s_set 0 (m flg) ->
     goes (Sr 0x137 (sp - 2) b g bc de hl x (mkCtl i im true true false) j) m' o) ->
  goes (Sr 0x126 sp a f bc de hl x (mkCtl i im false false false) j) m o.
Proof.
  intros C A F H B R K. istep. setm m1 E1 C1. istep. setm m2 E2 C2.
  assert (G : m2 flg = m flg) by (at_mem E2; at_mem E1; reflexivity). rewrite <- G in R. do 4 istep. setm m3 E3 C3. do 3 istep.
  assert (L : m3 (sp - 2 - 2) = lo hl) by (at_mem E3; at_mem E2; reflexivity).
  assert (U : m3 (sp - 2 - 2 + 1) = hi hl) by (at_mem E3; at_mem E2; reflexivity).
  rewrite L, U, word_hi_lo. replace (sp - 2 - 2 + 2) with (sp - 2) by lia.
  apply K; [exact C3|..]; [intros y Y1 Y2| | |]; at_mem E3; at_mem E2; at_mem E1; congruence.
Qed.
(** POP AF, RETI. *)
Lemma leave pc sp a f bc de hl x i im i1 i2 e (j : junk3 T) m o : (q = false \/ i1 = false) -> codeR m -> 0 <= m sp < 256 -> 0 <= m (sp + 1) < 256 -> pc = 0x171 \/ pc = 0x137 -> 0x2010 <= sp -> sp + 4 <= 0x10000 ->
  (forall j, goes (Sr (word_of (m (sp + 3)) (m (sp + 2))) (w16 (sp + 4)) (m (sp + 1)) (m sp) bc de hl x (mkCtl i im i2 i2 false) j) m (o ++ [IReti])) ->
  goes (Sr pc sp a f bc de hl x (mkCtl i im i1 i2 e) j) m o.
Proof.
  intros Hq C Y0 Y1 [-> | ->] S1 S2 K; istep; istep;
  replace (sp + 2 + 1) with (sp + 3) by lia; replace (sp + 2 + 2) with (sp + 4) by lia; apply K.
Qed.
(** RST 08h. *)
Lemma get_start sp a f bc de hl x i im i1 i2 e (j : junk3 T) m o : (q = false \/ i1 = false) -> codeR m ->
  (forall j e, goes (Sr 0x13F sp a f (rBC x) (rDE x) flg (swapped x bc de hl) (mkCtl i im false false e) j) m o) ->
  goes (Sr 0x08 sp a f bc de hl x (mkCtl i im i1 i2 e) j) m o.
Proof. intros Hq C K. do 4 istep. apply K. Qed.
Lemma get_again sp a f bc de hl x i im i1 i2 e (j : junk3 T) m o : (q = false \/ i1 = false) -> codeR m ->
  (forall j e, goes (Sr 0x13F sp a f bc de hl x (mkCtl i im false false e) j) m o) ->
  goes (Sr 0x153 sp a f bc de hl x (mkCtl i im i1 i2 e) j) m o.
Proof. intros Hq C K. do 2 istep. apply K. Qed.
Lemma get_none sp a f bc de x i im i1 i2 e (j : junk3 T) m o : (q = false \/ i1 = false) -> codeR m -> bitn (m flg) 1 = false -> Cf f = false ->
  (forall j f, Zf f = true -> goes (Sr 0x14E sp a f (rBC x) (rDE x) (rHL x) (swapped x bc de flg) (mkCtl i im true true false) j) m o) ->
  goes (Sr 0x13F sp a f bc de flg x (mkCtl i im i1 i2 e) j) m o.
Proof.
  intros Hq C R F K. do 5 istep. apply K. rewrite Zf_bit, R. reflexivity.
Qed.
Lemma get_wait sp a f bc de x i im i1 i2 e (j : junk3 T) m o : (q = false \/ i1 = false) -> codeR m -> bitn (m flg) 1 = false -> Cf f = true ->
  (forall j f, Cf f = true -> goes (Hr 0x152 sp a f bc de flg x (mkCtl i im true true false) j) m o) ->
  goes (Sr 0x13F sp a f bc de flg x (mkCtl i im i1 i2 e) j) m o.
Proof.
  intros Hq C R F K. do 5 istep. apply K. now rewrite Cf_bit.
Qed.
Lemma get_last sp a f bc de x i im i1 i2 e (j : junk3 T) m o : (q = false \/ i1 = false) -> codeR m -> 0 <= a < 256 -> bitn (m flg) 1 = true -> bitn (m flg) 0 = false ->
  (forall j f, Zf f = false -> goes (Sr 0x14E sp (m 0x2004) f (rBC x) (rDE x) (rHL x) (swapped x bc de 0x2004) (mkCtl i im true true false) j)
     (mupd m flg (s_res 1 (m flg))) o) ->
  goes (Sr 0x13F sp a f bc de flg x (mkCtl i im i1 i2 e) j) m o.
Proof.
  intros Hq C A R F K. do 5 istep. setm m1 E1 C1. do 2 istep. pose proof (Zf_or32 a A) as Zo. destruct (s_or a 32) as [g g']. cbn [fst snd] in *.
  do 3 istep. assert (G : m1 0x2004 = m 0x2004) by (at_mem E1; reflexivity). rewrite G. apply K. exact Zo.
Qed.
Lemma get_more sp a f bc de x i im i1 i2 e (j : junk3 T) m o : (q = false \/ i1 = false) -> codeR m -> bytesR m -> 0x4002 <= sp <= top -> sp < 0x10000 -> bitn (m flg) 1 = true -> bitn (m flg) 0 = true ->
  (forall j f m' v, 0 <= v < 256 -> Zf f = false -> codeR m' -> (forall y, y < sp - 2 \/ sp <= y -> y <> flg -> y <> 0x2004 -> m' y = m y) ->
     m' flg = s_res 0 (m flg) -> m' 0x2004 = v ->
     goes (Sr 0x14E sp (m 0x2004) f (rBC x) (rDE x) (rHL x) (swapped x bc de 0x2004) (mkCtl i im true true false) j) m' (o ++ [IIn (word_of (m 0x2004) 8) v])) ->
  goes (Sr 0x13F sp a f bc de flg x (mkCtl i im i1 i2 e) j) m o.
Proof.
  intros Hq C Y B B' R F K. do 5 istep. setm m1 E1 C1. do 2 istep.
  match goal with |- goes (Sr _ _ _ ?g _ _ _ _ _ _) _ _ => assert (Zg : Zf g = false) by (rewrite Zf_bit, F; reflexivity); assert (Rg : 0 <= g < 256) by apply flagbyte_range; set (g0 := g) in *; clearbody g0 end.
  assert (G : m1 0x2004 = m 0x2004) by (at_mem E1; reflexivity). rewrite G. pose proof (Y 0x2004 ltac:(lia)) as Yc. set (c := m 0x2004) in *.
  istep. setm m2 E2 C2. do 2 istep. setm m3 E3 C3.
  assert (L : m3 (sp - 2) = g0) by (at_mem E3; at_mem E2; reflexivity).
  assert (U : m3 (sp - 2 + 1) = c) by (at_mem E3; at_mem E2; reflexivity).
  istep. rewrite ?L, ?U. do 3 istep.
  replace (sp - 2 + 2) with sp by lia.
  apply K; [exact Hv|exact Zg|exact C3|..]; [intros y Y1 Y2 Y3| |]; at_mem E3; at_mem E2; at_mem E1; congruence.
Qed.
(** The interrupt of the clock. *)
Definition ticks (m : mem) : Z := m 0x2000 + 256 * (m 0x2001 + 256 * (m 0x2002 + 256 * m 0x2003)).
Lemma tick_end sp a f bc de hl hl' b g x i im (j : junk3 T) m o : codeR m -> 0 <= a < 256 -> 0 <= f < 256 -> 0x2010 <= sp -> sp + 6 <= 0x10000 ->
  m sp = lo hl -> m (sp + 1) = hi hl -> m (sp + 2) = f -> m (sp + 3) = a ->
  (forall j, goes (Sr (word_of (m (sp + 5)) (m (sp + 4))) (w16 (sp + 6)) a f bc de hl x (mkCtl i im true true false) j) m (o ++ [IReti])) ->
  goes (Sr 0x121 sp b g bc de hl' x (mkCtl i im false false false) j) m o.
Proof.
  intros C A F B1 B2 L U F' A' K. istep. rewrite L, U, word_hi_lo. replace (sp + 3) with (sp + 2 + 1) in A' by lia. istep.
  rewrite F', A'. words. do 2 istep. replace (sp + 2 + 2 + 1) with (sp + 5) by lia. replace (sp + 2 + 2 + 2) with (sp + 6) by lia.
  replace (sp + 2 + 2) with (sp + 4) by lia. apply K.
Qed.
(** One byte of the counter: INC, and out unless it came round. *)
Definition bump (n : Z) (m : mem) : mem := mupd m n (w8 (m n + 1)).
Lemma tick_byte n pc sp a f bc de x i im i1 i2 e (j : junk3 T) m o : (q = false \/ i1 = false) -> codeR m -> bytesR m -> (n = 0x2000 /\ pc = 0x114) \/ (n = 0x2001 /\ pc = 0x118) \/ (n = 0x2002 /\ pc = 0x11C) ->
  (m n = 255 -> forall j g, goes (Sr (pc + 4) sp a g bc de (n + 1) x (mkCtl i im i1 i2 false) j) (mupd m n 0) o) ->
  (m n < 255 -> forall j g, goes (Sr 0x121 sp a g bc de n x (mkCtl i im i1 i2 false) j) (mupd m n (m n + 1)) o) ->
  goes (Sr pc sp a f bc de n x (mkCtl i im i1 i2 e) j) m o.
Proof.
  intros Hq C Y N K1 K2. assert (Hn : 0x2000 <= n <= 0x2002) by lia. pose proof (Y n ltac:(lia)) as V.
  destruct (Z.eq_dec (m n) 255) as [E|E].
  - specialize (K1 E). clear K2. destruct N as [[-> ->]|[[-> ->]|[-> ->]]]; istep; rewrite E; change (w8 (255 + 1)) with 0.
    all: match goal with |- goes (Sr _ _ _ ?g _ _ _ _ _ _) _ _ => assert (Zg : Zf g = true) by (rewrite Zf_inc; reflexivity); set (g0 := g) in *; clearbody g0 end; setm m1 E1 C1; do 2 istep; apply K1.
  - assert (W : w8 (m n + 1) = m n + 1) by (apply w8_id; lia). specialize (K2 ltac:(lia)). clear K1.
    destruct N as [[-> ->]|[[-> ->]|[-> ->]]]; istep; rewrite ?W.
    all: match goal with |- goes (Sr _ _ _ ?g _ _ _ _ _ _) _ _ => assert (Zg : Zf g = false) by (rewrite Zf_inc, W; apply Z.eqb_neq; lia); set (g0 := g) in *; clearbody g0 end; setm m1 E1 C1; istep; apply K2.
Qed.
Lemma tick sp a f bc de hl x i im (j : junk3 T) m o : codeR m -> bytesR m -> 0 <= a < 256 -> 0 <= f < 256 -> 0 <= hl < 0x10000 -> 0x2014 <= sp <= top -> sp + 2 <= 0x10000 ->
  (forall j m', codeR m' -> bytesR m' -> (forall y, y < sp - 4 \/ sp <= y -> ~ 0x2000 <= y <= 0x2003 -> m' y = m y) -> ticks m' = (ticks m + 1) mod 2 ^ 32 ->
     goes (Sr (word_of (m (sp + 1)) (m sp)) (w16 (sp + 2)) a f bc de hl x (mkCtl i im true true false) j) m' (o ++ [IReti])) ->
  goes (Sr 0x10F sp a f bc de hl x (mkCtl i im false false false) j) m o.
Proof.
  intros C Y A F H B B' K. istep. setm m1 E1 C1. istep. setm m2 E2 C2.
  assert (Y2 : bytesR m2). { intros y Hy. specialize (Y y Hy). pose proof (lo_range hl). pose proof (hi_range hl H). at_mem E2; at_mem E1; lia. }
  assert (Q : forall n, 0x2000 <= n <= 0x2003 -> m2 n = m n) by (intros n N; at_mem E2; at_mem E1; reflexivity).
  assert (FIN : forall m' b g hl' j, codeR m' -> bytesR m' -> (forall y, ~ 0x2000 <= y <= 0x2003 -> m' y = m2 y) -> ticks m' = (ticks m + 1) mod 2 ^ 32 ->
    goes (Sr 0x121 (sp - 2 - 2) b g bc de hl' x (mkCtl i im false false false) j) m' o).
  { intros m' b g hl' j' C' Y' O' V'. apply tick_end with (hl := hl) (a := a) (f := f); try assumption; try lia.
    1-4: rewrite O' by lia; at_mem E2; at_mem E1; reflexivity.
    intros j''. replace (sp - 2 - 2 + 6) with (sp + 2) by lia. replace (sp - 2 - 2 + 5) with (sp + 1) by lia. replace (sp - 2 - 2 + 4) with sp by lia.
    assert (R0 : m' (sp + 1) = m (sp + 1)) by (rewrite O' by lia; at_mem E2; at_mem E1; reflexivity).
    assert (R1 : m' sp = m sp) by (rewrite O' by lia; at_mem E2; at_mem E1; reflexivity). rewrite R0, R1.
    apply K; try assumption. intros y Hy1 Hy2. rewrite O' by lia. at_mem E2; at_mem E1; reflexivity. }
  istep.
  assert (T4 : ticks m = m2 0x2000 + 256 * (m2 0x2001 + 256 * (m2 0x2002 + 256 * m2 0x2003))) by (unfold ticks; rewrite <- !Q by lia; reflexivity).
  pose proof (Y2 0x2000 ltac:(lia)) as V0. pose proof (Y2 0x2001 ltac:(lia)) as V1. pose proof (Y2 0x2002 ltac:(lia)) as V2. pose proof (Y2 0x2003 ltac:(lia)) as V3.
  rewrite T4 in FIN. clear K Q T4 E2 E1 C1 m1.
  apply (tick_byte 0x2000); [right; reflexivity|exact C2|exact Y2|lia| |]; intros D0 ? ?; cycle 1.
  { apply FIN; [apply codeR_upd; [exact C2|lia]|apply bytesR_upd; [exact Y2|lia]|intros y Hy; unfold mupd; destruct (Z.eqb_spec y 0x2000); [lia|reflexivity]|].
    unfold ticks, mupd; cbn [Z.eqb Pos.eqb]. symmetry. rewrite Z.mod_small; lia. }
  rewrite D0 in FIN.
  setm m3 E3 C3. assert (Y3 : bytesR m3) by (intros y Hy; rewrite E3; specialize (Y2 y Hy); destruct (y =? 0x2000); lia).
  apply (tick_byte 0x2001); [right; reflexivity|exact C3|exact Y3|lia| |]; rewrite (E3 0x2001); cbn [Z.eqb Pos.eqb]; intros D1 ? ?; cycle 1.
  { apply FIN; [apply codeR_upd; [exact C3|lia]|apply bytesR_upd; [exact Y3|lia]|intros y Hy; unfold mupd; rewrite E3; destruct (Z.eqb_spec y 0x2001); [lia|]; destruct (Z.eqb_spec y 0x2000); [lia|reflexivity]|].
    unfold ticks, mupd; cbn [Z.eqb Pos.eqb]; rewrite !E3; cbn [Z.eqb Pos.eqb]. symmetry. rewrite Z.mod_small; lia. }
  rewrite D1 in FIN.
  setm m4 E4 C4. assert (Y4 : bytesR m4) by (intros y Hy; rewrite E4; specialize (Y3 y Hy); destruct (y =? 0x2001); lia).
  apply (tick_byte 0x2002); [right; reflexivity|exact C4|exact Y4|lia| |]; rewrite (E4 0x2002), (E3 0x2002); cbn [Z.eqb Pos.eqb]; intros D2 ? ?; cycle 1.
  { apply FIN; [apply codeR_upd; [exact C4|lia]|apply bytesR_upd; [exact Y4|lia]|intros y Hy; unfold mupd; rewrite E4, E3; destruct (Z.eqb_spec y 0x2002); [lia|]; destruct (Z.eqb_spec y 0x2001); [lia|]; destruct (Z.eqb_spec y 0x2000); [lia|reflexivity]|].
    unfold ticks, mupd; cbn [Z.eqb Pos.eqb]; rewrite !E4; cbn [Z.eqb Pos.eqb]; rewrite !E3; cbn [Z.eqb Pos.eqb]. symmetry. rewrite Z.mod_small; lia. }
  rewrite D2 in FIN.
  setm m5 E5 C5. assert (Y5 : bytesR m5) by (intros y Hy; rewrite E5; specialize (Y4 y Hy); destruct (y =? 0x2002); lia).
  change (0x2002 + 1) with 0x2003. change (0x114 + 4 + 4 + 4) with 0x120. istep. rewrite (E5 0x2003), (E4 0x2003), (E3 0x2003); cbn [Z.eqb Pos.eqb].
  assert (W : 0 <= w8 (m2 0x2003 + 1) < 256) by (unfold w8; apply Z.mod_pos_bound; lia).
  apply FIN; [apply codeR_upd; [exact C5|lia]|apply bytesR_upd; [exact Y5|exact W]|intros y Hy; unfold mupd; rewrite E5, E4, E3; destruct (Z.eqb_spec y 0x2003); [lia|]; destruct (Z.eqb_spec y 0x2002); [lia|]; destruct (Z.eqb_spec y 0x2001); [lia|]; destruct (Z.eqb_spec y 0x2000); [lia|reflexivity]|].
  unfold ticks, mupd; cbn [Z.eqb Pos.eqb]; rewrite !E5; cbn [Z.eqb Pos.eqb]; rewrite !E4; cbn [Z.eqb Pos.eqb]; rewrite !E3; cbn [Z.eqb Pos.eqb].
  destruct (Z.eq_dec (m2 0x2003) 255) as [D3|D3].
  - rewrite D3. reflexivity.
  - unfold w8. rewrite (Z.mod_small (m2 0x2003 + 1)) by lia. symmetry. rewrite Z.mod_small; lia.
Qed.
(** The vectors that are not in use, and clear_ieo. *)
Lemma none_int sp a f bc de hl x i im (j : junk3 T) m o : codeR m -> 0x2010 <= sp -> sp + 2 <= 0x10000 ->
  (forall j, goes (Sr (word_of (m (sp + 1)) (m sp)) (w16 (sp + 2)) a f bc de hl x (mkCtl i im true true false) j) m (o ++ [IReti])) ->
  goes (Sr 0x10C sp a f bc de hl x (mkCtl i im false false false) j) m o.
Proof. intros C B1 B2 K. do 2 istep. apply K. Qed.
End K.
