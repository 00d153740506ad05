(** Library routines of the kernel of the example computer, run on the specification. *)
From Coq Require Import ZArith Bool List Lia.
From Verif Require Import Base Parse Cpu Flavours Range Clock RalMemory RalBus SpecRal SpecAlu SpecState SpecIsa AluProofs IsaLink IsaRun Trace Asm RomImage SpecRom RomHoare RomAsm RomIo RomRun SpecLib.
Import ListNotations.
Open Scope Z_scope.

Lemma fst_add a v : fst (s_add a v false) = (a + v) mod 256.
Proof. unfold s_add. cbn [fst bz]. now rewrite Z.add_0_r. Qed.
Lemma Cf_add a v : Cf (snd (s_add a v false)) = (256 <=? a + v).
Proof. unfold s_add. cbn [snd bz]. rewrite Cf_szxy. now rewrite Z.add_0_r. Qed.
Lemma fst_sub a v : fst (s_sub a v false) = (a - v) mod 256.
Proof. unfold s_sub. cbn [fst bz]. now rewrite Z.sub_0_r. Qed.
Lemma Cf_or a v : Cf (snd (s_or a v)) = false.
Proof. unfold s_or, s_logic. cbn [snd]. apply Cf_szxy. Qed.
Lemma Zf_or a v : Zf (snd (s_or a v)) = (fst (s_or a v) =? 0).
Proof. unfold s_or, s_logic. cbn [fst snd]. apply Zf_szxy. Qed.
Lemma or_lor a v : 0 <= a < 256 -> 0 <= v < 256 -> fst (s_or a v) = Z.lor a v.
Proof.
  intros A V. unfold s_or, s_logic. cbn [fst]. apply Z.bits_inj'. intros i I. rewrite Z.lor_spec.
  destruct (Z.ltb_spec i 8) as [L|L].
  - rewrite of_bits_testbit by lia. reflexivity.
  - assert (H : forall x, 0 <= x < 256 -> Z.testbit x i = false).
    { intros x X. destruct (Z.eq_dec x 0) as [->|N]; [apply Z.testbit_0_l|]. apply Z.bits_above_log2; [lia|].
      assert (Z.log2 x < 8) by (apply Z.log2_lt_pow2; lia). lia. }
    rewrite !H; try assumption; [reflexivity|apply of_bits_range].
Qed.

Lemma fst_add16 x y f : fst (s_add16 x y f) = (x + y) mod 65536.
Proof. reflexivity. Qed.
Lemma Cf_add16 x y f : Cf (snd (s_add16 x y f)) = (65536 <=? x + y).
Proof. unfold s_add16. cbn [snd]. apply flag_bits. Qed.
Lemma fst_sbc16 x y : fst (s_sbc16 x y false) = (x - y) mod 65536.
Proof. unfold s_sbc16. cbn [fst bz]. now rewrite Z.sub_0_r. Qed.
Lemma xor_self a : fst (s_xor a a) = 0.
Proof. unfold s_xor, s_logic, of_bits. cbn. rewrite !xorb_nilpotent. reflexivity. Qed.

Section Mono.
Context {T : Type}.
Variable ch : SpecIsa.chip T.
Variable q : bool.
Variable top : Z.
Variables P P' : arch T -> mem -> list io -> Prop.
Hypothesis PP : forall a m o, P a m o -> P' a m o.
Lemma goes_mono a m o : goes (WB:=unit) (RB:=unit) ch q top P a m o -> goes (WB:=unit) (RB:=unit) ch q top P' a m o.
Proof.
  revert a m o. apply (goes_ind' T unit unit ch q top P (goes (WB:=unit) (RB:=unit) ch q top P') (on (WB:=unit) (RB:=unit) ch q top P'));
    intros; first [solve [apply g_now; auto] | solve [apply g_step; assumption] | solve [constructor; auto]].
Qed.
End Mono.

(** Digits by repeated addition of a negative number. *)
Section Digits.
Context {T : Type}.
Variable ch : SpecIsa.chip T.
Variable top : Z.
Hypothesis HT : 0x4000 <= top <= 0x10000.
Variable P : arch T -> mem -> list io -> Prop.
Notation goes := (goes (WB:=unit) (RB:=unit) ch false top P).
Ltac Zify.zify_post_hook ::= Z.div_mod_to_equations.
Lemma add8_loop n k : n = 100 \/ n = 10 -> forall a b f sp de hl x i im i1 i2 e (j : junk3 T) m o, codeR m -> 0 <= a < 256 -> a / n = Z.of_nat k -> 0 <= b -> b + Z.of_nat k < 200 ->
  (forall j f, goes (Sr 0x222 sp (a mod n + 256 - n) f (word_of (b + Z.of_nat k + 1) (256 - n)) de hl x (mkCtl i im i1 i2 false) j) m o) ->
  goes (Sr 0x21E sp a f (word_of b (256 - n)) de hl x (mkCtl i im i1 i2 e) j) m o.
Proof.
  intros N. induction k as [|k IH]; intros a b f sp de hl x i im i1 i2 e j m o C A E B B2 K.
  - assert (L : a < n) by (destruct N; subst n; lia). istep. pose proof (Cf_add a (256 - n)) as CF. rewrite fst_add.
    replace (256 <=? a + (256 - n)) with false in CF by lia. set (f1 := snd _) in *. clearbody f1.
    replace ((a + (256 - n)) mod 256) with (a mod n + 256 - n) by (destruct N; subst n; lia). do 2 istep.
    replace (b + 1) with (b + Z.of_nat 0 + 1) by lia. apply K.
  - assert (L : n <= a) by (destruct N; subst n; lia). istep. pose proof (Cf_add a (256 - n)) as CF. rewrite fst_add.
    replace (256 <=? a + (256 - n)) with true in CF by lia. set (f1 := snd _) in *. clearbody f1.
    replace ((a + (256 - n)) mod 256) with (a - n) by (destruct N; subst n; lia). do 2 istep.
    apply IH; [exact C|lia|destruct N; subst n; lia|lia|lia|]. intros j5 f5.
    replace ((a - n) mod n) with (a mod n) by (destruct N; subst n; lia).
    replace (b + 1 + Z.of_nat k + 1) with (b + Z.of_nat (S k) + 1) by lia. apply K.
Qed.
(** The digit [d / n] of [d]: printed, or the padding character for a zero in front, or nothing. *)
Lemma digit8 n sp a f b d e hl x i im i1 i2 ee (j : junk3 T) m o : n = 100 \/ n = 10 -> codeR m -> 0 <= d < 256 -> 0 <= e < 256 -> 0x4000 <= sp -> sp + 2 <= 0x10000 ->
  (d / n <> 0 -> forall j f b, Cf f = false -> goes (Sr 0x10 sp (48 + d / n) f b (word_of (d mod n) 48) hl x (mkCtl i im i1 i2 false) j) m o) ->
  (d / n = 0 -> e <> 0 -> forall j f b, Cf f = false -> goes (Sr 0x10 sp e f b (word_of d e) hl x (mkCtl i im i1 i2 false) j) m o) ->
  (d / n = 0 -> e = 0 -> forall j f b, goes (Sr (word_of (m (sp + 1)) (m sp)) (w16 (sp + 2)) 0 f b (word_of d 0) hl x (mkCtl i im i1 i2 false) j) m o) ->
  goes (Sr 0x21B sp a f (word_of b (256 - n)) (word_of d e) hl x (mkCtl i im i1 i2 ee) j) m o.
Proof.
  intros N C D E S1 S2 K1 K2 K3. do 2 istep.
  apply (add8_loop n (Z.to_nat (d / n)) N); [exact C|lia|destruct N; subst n; lia|lia|destruct N; subst n; lia|].
  intros jA f2. rewrite Z2Nat.id by (destruct N; subst n; lia). rewrite Z.add_0_l.
  assert (Q : 0 <= d / n <= 25) by (destruct N; subst n; lia). assert (R : 0 <= d mod n < n) by (destruct N; subst n; lia).
  istep. rewrite fst_sub. replace ((d mod n + 256 - n - (256 - n)) mod 256) with (d mod n) by (destruct N; subst n; lia).
  set (f3 := snd _). clearbody f3. istep.
  match goal with |- context [snd (s_dec ?v ?g)] => pose proof (Zf_dec v g) as ZF; set (f4 := snd (s_dec v g)) in *; clearbody f4 end.
  rewrite w8_id in ZF by lia. replace (d / n + 1 - 1) with (d / n) in * by lia.
  do 2 istep. destruct (Z.eqb_spec (d / n) 0) as [E0|E0].
  - istep. rewrite E0. istep. rewrite or_lor by lia. rewrite Z.lor_0_l. pose proof (Zf_or 0 e) as Z5. pose proof (Cf_or 0 e) as C5.
    rewrite or_lor, Z.lor_0_l in Z5 by lia. set (f5 := snd _) in *. clearbody f5.
    replace (d mod n) with d by (destruct N; subst n; lia).
    destruct (Z.eqb_spec e 0) as [E1|E1].
    + istep. subst e. apply K3; [exact E0|reflexivity].
    + do 2 istep. apply K2; assumption.
  - do 3 istep. rewrite fst_add. pose proof (Cf_add (d / n) 48) as C6. replace (256 <=? d / n + 48) with false in C6 by lia.
    set (f6 := snd _) in *. clearbody f6. rewrite Z.mod_small by lia. istep. rewrite (Z.add_comm (d / n)). apply K1; assumption.
Qed.
Lemma add16_loop n k : n = 10000 \/ n = 1000 \/ n = 100 \/ n = 10 -> forall h a f sp de x i im i1 i2 e (j : junk3 T) m o, codeR m -> 0 <= h < 65536 -> h / n = Z.of_nat k -> 0 <= a -> a + Z.of_nat k < 200 ->
  (forall j f, Cf f = false -> goes (Sr 0x254 sp (a + Z.of_nat k + 1) f (65536 - n) de (h mod n + 65536 - n) x (mkCtl i im i1 i2 false) j) m o) ->
  goes (Sr 0x250 sp a f (65536 - n) de h x (mkCtl i im i1 i2 e) j) m o.
Proof.
  intros N. induction k as [|k IH]; intros h a f sp de x i im i1 i2 e j m o C H E B B2 K.
  - assert (L : h < n) by (destruct N as [N|[N|[N|N]]]; subst n; lia). istep.
    match goal with |- context [s_add16 ?x ?y ?g] => pose proof (Cf_add16 x y g) as CF; change (fst (s_add16 x y g)) with ((x + y) mod 65536); set (f1 := snd (s_add16 x y g)) in *; clearbody f1 end.
    replace (65536 <=? h + (65536 - n)) with false in CF by lia.
    replace ((h + (65536 - n)) mod 65536) with (h mod n + 65536 - n) by (destruct N as [N|[N|[N|N]]]; subst n; lia).
    do 2 istep. replace (a + 1) with (a + Z.of_nat 0 + 1) by lia. apply K. rewrite Cf_inc. exact CF.
  - assert (L : n <= h) by (destruct N as [N|[N|[N|N]]]; subst n; lia). istep.
    match goal with |- context [s_add16 ?x ?y ?g] => pose proof (Cf_add16 x y g) as CF; change (fst (s_add16 x y g)) with ((x + y) mod 65536); set (f1 := snd (s_add16 x y g)) in *; clearbody f1 end.
    replace (65536 <=? h + (65536 - n)) with true in CF by lia.
    replace ((h + (65536 - n)) mod 65536) with (h - n) by (destruct N as [N|[N|[N|N]]]; subst n; lia).
    do 2 istep. apply IH; [exact C|lia|destruct N as [N|[N|[N|N]]]; subst n; lia|lia|lia|]. intros j5 f5 C5.
    replace ((h - n) mod n) with (h mod n) by (destruct N as [N|[N|[N|N]]]; subst n; lia).
    replace (a + 1 + Z.of_nat k + 1) with (a + Z.of_nat (S k) + 1) by lia. apply K. exact C5.
Qed.
Lemma digit16 n sp a f d e h x i im i1 i2 ee (j : junk3 T) m o : n = 10000 \/ n = 1000 \/ n = 100 \/ n = 10 -> codeR m -> 0 <= h < 65536 -> h / n <= 9 -> 0 <= e < 256 -> 0x4000 <= sp -> sp + 2 <= 0x10000 ->
  (h / n <> 0 -> forall j f, Cf f = false -> goes (Sr 0x10 sp (48 + h / n) f (65536 - n) (word_of d 48) (h mod n) x (mkCtl i im i1 i2 false) j) m o) ->
  (h / n = 0 -> e <> 0 -> forall j f, Cf f = false -> goes (Sr 0x10 sp e f (65536 - n) (word_of d e) h x (mkCtl i im i1 i2 false) j) m o) ->
  (h / n = 0 -> e = 0 -> forall j f, goes (Sr (word_of (m (sp + 1)) (m sp)) (w16 (sp + 2)) 0 f (65536 - n) (word_of d 0) h x (mkCtl i im i1 i2 false) j) m o) ->
  goes (Sr 0x24F sp a f (65536 - n) (word_of d e) h x (mkCtl i im i1 i2 ee) j) m o.
Proof.
  intros N C D D9 E S1 S2 K1 K2 K3. istep. rewrite xor_self. set (f0 := snd _). clearbody f0.
  assert (Q : 0 <= h / n) by (destruct N as [N|[N|[N|N]]]; subst n; lia). assert (R : 0 <= h mod n < n) by (destruct N as [N|[N|[N|N]]]; subst n; lia).
  assert (N' : 0 < n <= 10000) by lia.
  apply (add16_loop n (Z.to_nat (h / n)) N); [exact C|lia|rewrite Z2Nat.id by exact Q; reflexivity|lia|rewrite Z2Nat.id by exact Q; lia|].
  intros jA f2 C2. rewrite Z2Nat.id by exact Q. rewrite Z.add_0_l.
  istep. rewrite ?fst_sbc16.
  replace ((h mod n + 65536 - n - (65536 - n)) mod 65536) with (h mod n) by (replace (h mod n + 65536 - n - (65536 - n)) with (h mod n) by lia; symmetry; apply Z.mod_small; lia).
  set (f3 := snd _). clearbody f3. istep.
  match goal with |- context [snd (s_dec ?v ?g)] => pose proof (Zf_dec v g) as ZF; set (f4 := snd (s_dec v g)) in *; clearbody f4 end.
  rewrite w8_id in ZF by lia. replace (h / n + 1 - 1) with (h / n) in * by lia.
  destruct (Z.eqb_spec (h / n) 0) as [E0|E0].
  - istep. rewrite E0. istep. rewrite or_lor by lia. rewrite Z.lor_0_l. pose proof (Zf_or 0 e) as Z5. pose proof (Cf_or 0 e) as C5.
    rewrite or_lor, Z.lor_0_l in Z5 by lia. set (f5 := snd _) in *. clearbody f5.
    replace (h mod n) with h by (destruct N as [N|[N|[N|N]]]; subst n; lia).
    destruct (Z.eqb_spec e 0) as [E1|E1].
    + istep. subst e. apply K3; [exact E0|reflexivity].
    + do 2 istep. apply K2; assumption.
  - do 3 istep. rewrite fst_add. pose proof (Cf_add (h / n) 48) as C6. replace (256 <=? h / n + 48) with false in C6 by lia.
    set (f6 := snd _) in *. clearbody f6. rewrite Z.mod_small by lia. istep. rewrite (Z.add_comm (h / n)). apply K1; assumption.
Qed.
End Digits.

(** ** Printing *)
Section Says.
Context {T : Type}.
Variable ch : SpecIsa.chip T.
Variable top : Z.
Fixpoint sayg (cs : list Z) (Fin : arch T -> mem -> Prop) (a : arch T) (m : mem) : Prop :=
  goes (WB:=unit) (RB:=unit) ch false top (fun a m o => o = [] /\
    match cs with
    | [] => Fin a m
    | v :: cs => aPC a = 0x10 /\ aA a = v /\ carry a = false /\ aHALT a = false /\
        forall a1 m1, codeR m1 -> bytesR m1 -> printed a m a1 m1 -> sayg cs Fin a1 m1
    end) a m [].
Definition Pc (cs : list Z) (Fin : arch T -> mem -> Prop) : arch T -> mem -> list io -> Prop := fun a m o => o = [] /\
    match cs with
    | [] => Fin a m
    | v :: cs => aPC a = 0x10 /\ aA a = v /\ carry a = false /\ aHALT a = false /\
        forall a1 m1, codeR m1 -> bytesR m1 -> printed a m a1 m1 -> sayg cs Fin a1 m1
    end.
Lemma sayg_eq cs Fin a m : sayg cs Fin a m = goes (WB:=unit) (RB:=unit) ch false top (Pc cs Fin) a m [].
Proof. destruct cs; reflexivity. Qed.
Lemma char_now v cs Fin sp f bc de hl x k (j : junk3 T) m : Cf f = false ->
  (forall f x1 j m1, codeR m1 -> bytesR m1 -> same_but (kernels 64 sp) m m1 -> rAF x1 = rAF x -> rIX x1 = rIX x -> rIY x1 = rIY x ->
     sayg cs Fin (Sr (word_at m sp) (sp + 2) v f bc de hl x1 (mkCtl (kI k) (kIM k) true true false) j) m1) ->
  goes (WB:=unit) (RB:=unit) ch false top (Pc (v :: cs) Fin) (Sr 0x10 sp v f bc de hl x k j) m [].
Proof.
  intros CF K. apply g_now. split; [reflexivity|]. split; [reflexivity|]. split; [reflexivity|]. split; [exact CF|]. split; [reflexivity|].
  intros a1 m1 C1 B1 ([] & NH & EA & _ & SB). cbn [aSP aBC aDE aHL aIX aIY aAF' aI aIM aA Sr] in *.
  rewrite (state_is a1) by assumption. rewrite NH. unfold ctl_of. rewrite rd_pc, rd_sp, rd_bc, rd_de, rd_hl, EA, rd_i, rd_im, rd_1, rd_2, rd_ei.
  apply K; try assumption.
Qed.
End Says.
Section Link.
Context {Q T : Type}.
Variable FL : Flavour Q.
Variable ch : SpecIsa.chip T.
Variable absq : Q -> T.
Context (OK : chip_ok FL ch absq).
Variable kb : Z.
Lemma says_of cs Fin : forall l0 mm c, kernel_mem kb l0 mm -> wf c -> sayg ch (0x4000 + kb * 1024) cs Fin (abs absq c) (kview kb (rev l0)) ->
  says FL absq kb cs Fin l0 mm c.
Proof.
  induction cs as [|v cs IH]; intros l0 mm c KM W G D dv limit d k; apply (comes_of FL ch absq OK); try assumption.
  cbn [sayg] in G. revert G. apply goes_mono. intros a m o (-> & E1 & E2 & E3 & E4 & K). split; [reflexivity|]. repeat (split; [assumption|]).
  intros l1 mm1 c1 KM1 W1 PR. apply IH; try assumption. apply K; [exact (run_code kb l1)|exact (run_bytes kb l1 mm1 KM1)|exact PR].
Qed.
End Link.

Lemma same_trans (E1 E2 E3 : Z -> Prop) m m1 m2 : same_but E1 m m1 -> same_but E2 m1 m2 -> (forall y, E1 y -> E3 y) -> (forall y, E2 y -> E3 y) -> same_but E3 m m2.
Proof. intros H1 H2 I1 I2 y Y N. rewrite (H2 y Y) by auto. apply (H1 y Y). auto. Qed.

(** ** The numbers *)
Section Numbers.
Context {T : Type}.
Variable ch : SpecIsa.chip T.
Variable top : Z.
Hypothesis HT : 0x4000 <= top <= 0x10000.
Variables (a0 : arch T) (m0 : mem).
Variable sp : Z.
Hypothesis (ES : aSP a0 = sp) (SP : 0x4002 <= sp <= top) (SP2 : sp + 2 < 0x10000).
Notation Fin := (back a0 m0).
Notation Goes cs := (goes (WB:=unit) (RB:=unit) ch false top (Pc ch top cs Fin)).
Definition kept (x : rest) (m : mem) : Prop := rAF x = aAF' a0 /\ rIX x = aIX a0 /\ rIY x = aIY a0 /\ codeR m /\ bytesR m /\ same_but (kernels 80 sp) m0 m.
Lemma kept_word x m : kept x m -> word_at m sp = word_at m0 sp.
Proof. intros (_ & _ & _ & _ & _ & SB). unfold word_at. rewrite !SB by (unfold kernels; lia). reflexivity. Qed.
Lemma kept_print x m x1 m1 s : kept x m -> sp - 16 <= s <= sp -> same_but (kernels 64 s) m m1 -> codeR m1 -> bytesR m1 -> rAF x1 = rAF x -> rIX x1 = rIX x -> rIY x1 = rIY x -> kept x1 m1.
Proof.
  intros (E1 & E2 & E3 & C & B & SB) HS SB1 C1 B1 F1 F2 F3. unfold kept. rewrite F1, F2, F3. repeat (split; [assumption|]).
  apply (same_trans _ _ _ _ _ _ SB SB1); [auto|]. unfold kernels. lia.
Qed.
Lemma kept_push x m v w s : kept x m -> sp - 16 <= s - 2 -> s <= sp -> 0 <= v < 256 -> 0 <= w < 256 -> kept x (mupd (mupd m (s - 1) v) (s - 2) w).
Proof.
  intros (E1 & E2 & E3 & C & B & SB) H1 H2 V W. unfold kept. repeat (split; [assumption|]).
  split; [apply codeR_upd; [apply codeR_upd; [exact C|lia]|lia]|]. split; [apply bytesR_upd; [apply bytesR_upd; assumption|assumption]|].
  intros y Y N. unfold mupd, kernels in *. destruct (Z.eqb_spec y (s - 2)); [lia|]. destruct (Z.eqb_spec y (s - 1)); [lia|]. apply SB; assumption.
Qed.
(** The last character: back at the caller. *)
Lemma last_char v f bc de hl x k (j : junk3 T) m : Cf f = false -> kept x m -> Goes [v] (Sr 0x10 sp v f bc de hl x k j) m [].
Proof.
  intros CF KP. apply char_now; [exact CF|]. intros f1 x1 j1 m1 C1 B1 SB F1 F2 F3. rewrite sayg_eq. apply g_now. split; [reflexivity|].
  destruct (kept_print _ _ x1 m1 sp KP ltac:(lia) SB C1 B1 F1 F2 F3) as (E1 & E2 & E3 & _ & _ & SB1).
  unfold back. rewrite ES. cbn [aPC aSP aIX aIY aAF' aHALT aPX Sr]. rewrite (kept_word x m KP). auto 12.
Qed.
(** One digit called from [pc]: the characters, then on after the call. *)
Definition lead (pad d : Z) : list Z * Z := if d =? 0 then (if pad =? 0 then [] else [pad], pad) else ([48 + d], 48).
Lemma call8 n ret cs a f bc d e hl x i im i1 i2 ee (j : junk3 T) m : n = 100 \/ n = 10 -> kept x m -> 0 <= d < 256 -> 0 <= e < 256 -> 0 <= ret < 0x2000 ->
  (forall a f bc x i1 i2 j m, kept x m -> Goes cs (Sr ret sp a f bc (word_of (d mod n) (snd (lead e (d / n)))) hl x (mkCtl i im i1 i2 false) j) m []) ->
  Goes (fst (lead e (d / n)) ++ cs) (Sr 0x21B (sp - 2) a f (word_of bc (256 - n)) (word_of d e) hl x (mkCtl i im i1 i2 ee) j) (mupd (mupd m (sp - 1) (hi ret)) (sp - 2) (lo ret)) [].
Proof.
  intros N KP D E R K.
  assert (KP1 : kept x (mupd (mupd m (sp - 1) (hi ret)) (sp - 2) (lo ret))) by (apply kept_push; try lia; [exact KP|apply hi_range; lia|apply lo_range]).
  set (m1 := mupd _ _ _) in *.
  assert (W1 : m1 (sp - 2) = lo ret) by (unfold m1, mupd; now rewrite Z.eqb_refl).
  assert (W2 : m1 (sp - 1) = hi ret) by (unfold m1, mupd; rewrite Z.eqb_refl; destruct (Z.eqb_spec (sp - 1) (sp - 2)); [lia|reflexivity]).
  assert (WW : word_at m1 (sp - 2) = ret). { unfold word_at. replace (sp - 2 + 1) with (sp - 1) by lia. rewrite W1, W2. pose proof (word_hi_lo ret) as X. unfold word_of in X. lia. }
  clearbody m1. destruct (KP1) as (_ & _ & _ & C1 & _).
  assert (DM : d / n = 0 -> d mod n = d) by (destruct N; subst n; Z.div_mod_to_equations; lia).
  unfold lead in *. apply digit8; try assumption; try lia.
  - intros NZ j1 f1 b1 F1. destruct (Z.eqb_spec (d / n) 0) as [X|X]; [contradiction|]. cbn [fst snd app] in *.
    apply char_now; [exact F1|]. intros f2 x2 j2 m2 C2 B2 SB A1 A2 A3. rewrite sayg_eq, WW. replace (sp - 2 + 2) with sp by lia.
    apply K. exact (kept_print _ _ _ _ (sp - 2) KP1 ltac:(lia) SB C2 B2 A1 A2 A3).
  - intros Z0 NE j1 f1 b1 F1. rewrite Z0 in *. cbn [Z.eqb] in *. destruct (Z.eqb_spec e 0) as [X|X]; [contradiction|]. cbn [fst snd app] in *. rewrite (DM eq_refl) in K.
    apply char_now; [exact F1|]. intros f2 x2 j2 m2 C2 B2 SB A1 A2 A3. rewrite sayg_eq, WW. replace (sp - 2 + 2) with sp by lia.
    apply K. exact (kept_print _ _ _ _ (sp - 2) KP1 ltac:(lia) SB C2 B2 A1 A2 A3).
  - intros Z0 EE j1 f1 b1. rewrite Z0 in *. cbn [Z.eqb] in *. subst e. cbn [Z.eqb fst snd app] in *. rewrite (DM eq_refl) in K.
    replace (sp - 2 + 1) with (sp - 1) by lia. rewrite W1, W2, word_hi_lo. rewrite w16_id by lia. replace (sp - 2 + 2) with sp by lia. apply K. exact KP1.
Qed.
Lemma call16 n ret cs a f d e h x i im i1 i2 ee (j : junk3 T) m : n = 10000 \/ n = 1000 \/ n = 100 \/ n = 10 -> kept x m -> 0 <= h < 65536 -> h / n <= 9 -> 0 <= e < 256 -> 0 <= ret < 0x2000 ->
  (forall a f x i1 i2 j m, kept x m -> Goes cs (Sr ret sp a f (65536 - n) (word_of d (snd (lead e (h / n)))) (h mod n) x (mkCtl i im i1 i2 false) j) m []) ->
  Goes (fst (lead e (h / n)) ++ cs) (Sr 0x24F (sp - 2) a f (65536 - n) (word_of d e) h x (mkCtl i im i1 i2 ee) j) (mupd (mupd m (sp - 1) (hi ret)) (sp - 2) (lo ret)) [].
Proof.
  intros N KP D D9 E R K.
  assert (KP1 : kept x (mupd (mupd m (sp - 1) (hi ret)) (sp - 2) (lo ret))) by (apply kept_push; try lia; [exact KP|apply hi_range; lia|apply lo_range]).
  set (m1 := mupd _ _ _) in *.
  assert (W1 : m1 (sp - 2) = lo ret) by (unfold m1, mupd; now rewrite Z.eqb_refl).
  assert (W2 : m1 (sp - 1) = hi ret) by (unfold m1, mupd; rewrite Z.eqb_refl; destruct (Z.eqb_spec (sp - 1) (sp - 2)); [lia|reflexivity]).
  assert (WW : word_at m1 (sp - 2) = ret). { unfold word_at. replace (sp - 2 + 1) with (sp - 1) by lia. rewrite W1, W2. pose proof (word_hi_lo ret) as X. unfold word_of in X. lia. }
  clearbody m1. destruct (KP1) as (_ & _ & _ & C1 & _).
  assert (DM : h / n = 0 -> h mod n = h) by (destruct N as [N|[N|[N|N]]]; subst n; Z.div_mod_to_equations; lia).
  unfold lead in *. apply digit16; try assumption; try lia.
  - intros NZ j1 f1 F1. destruct (Z.eqb_spec (h / n) 0) as [X|X]; [contradiction|]. cbn [fst snd app] in *.
    apply char_now; [exact F1|]. intros f2 x2 j2 m2 C2 B2 SB A1 A2 A3. rewrite sayg_eq, WW. replace (sp - 2 + 2) with sp by lia.
    apply K. exact (kept_print _ _ _ _ (sp - 2) KP1 ltac:(lia) SB C2 B2 A1 A2 A3).
  - intros Z0 NE j1 f1 F1. rewrite Z0 in *. cbn [Z.eqb] in *. destruct (Z.eqb_spec e 0) as [X|X]; [contradiction|]. cbn [fst snd app] in *. rewrite (DM eq_refl) in K.
    apply char_now; [exact F1|]. intros f2 x2 j2 m2 C2 B2 SB A1 A2 A3. rewrite sayg_eq, WW. replace (sp - 2 + 2) with sp by lia.
    apply K. exact (kept_print _ _ _ _ (sp - 2) KP1 ltac:(lia) SB C2 B2 A1 A2 A3).
  - intros Z0 EE j1 f1. rewrite Z0 in *. cbn [Z.eqb] in *. subst e. cbn [Z.eqb fst snd app] in *. rewrite (DM eq_refl) in K.
    replace (sp - 2 + 1) with (sp - 1) by lia. rewrite W1, W2, word_hi_lo. rewrite w16_id by lia. replace (sp - 2 + 2) with sp by lia. apply K. exact KP1.
Qed.
Lemma lead_pad e d : 0 <= e < 256 -> 0 <= snd (lead e d) < 256.
Proof. intros E. unfold lead. destruct (d =? 0); cbn [snd]; lia. Qed.
Lemma show_lead e d ds : ds <> [] -> 0 <= d -> Forall (fun x => 0 <= x) ds -> show e (d :: ds) = fst (lead e d) ++ show (snd (lead e d)) ds.
Proof.
  intros NE D FA. unfold lead. destruct ds as [|d1 ds]; [contradiction|]. destruct d; [change (show e (0 :: d1 :: ds)) with ((if e =? 0 then [] else [e]) ++ show e (d1 :: ds)); reflexivity| |lia]. cbn [Z.eqb fst snd app].
  change (show e (Zpos p :: d1 :: ds)) with (map (Z.add 48) (Zpos p :: d1 :: ds)).
  cbn [map app]. f_equal. clear - FA. revert d1 FA. induction ds as [|d2 ds IH]; intros d1 FA; [destruct d1; reflexivity|].
  inversion_clear FA as [|? ? F1 F2]. destruct d1; [|reflexivity|lia]. cbn [show Z.eqb app]. change (48 + 0) with 48. cbn [map] in *. f_equal. apply IH. exact F2.
Qed.
Lemma show_one e d : show e [d] = [48 + d].
Proof. destruct d; reflexivity. Qed.
Ltac Zify.zify_post_hook ::= Z.div_mod_to_equations.
(** A digit of which it is known that it is the last. *)
Lemma last8 a f bc d e hl x i im i1 i2 ee (j : junk3 T) m : kept x m -> 0 <= d <= 9 -> 0 <= e < 256 ->
  Goes [48 + d] (Sr 0x218 sp a f bc (word_of d e) hl x (mkCtl i im i1 i2 ee) j) m [].
Proof.
  intros KP D E. destruct (KP) as (_ & _ & _ & C & _). do 4 istep. rewrite fst_add. pose proof (Cf_add d 48) as C6. replace (256 <=? d + 48) with false in C6 by lia.
  set (f6 := snd _) in *. clearbody f6. rewrite Z.mod_small by lia. istep. rewrite (Z.add_comm d). apply last_char; assumption.
Qed.
Lemma last16 a f bc d e h x i im i1 i2 ee (j : junk3 T) m : kept x m -> 0 <= h <= 9 -> 0 <= e < 256 ->
  Goes [48 + h] (Sr 0x24C sp a f bc (word_of d e) h x (mkCtl i im i1 i2 ee) j) m [].
Proof.
  intros KP D E. destruct (KP) as (_ & _ & _ & C & _). istep. unfold lo. rewrite (Z.mod_small h) by lia. do 3 istep. rewrite fst_add. pose proof (Cf_add h 48) as C6. replace (256 <=? h + 48) with false in C6 by lia.
  set (f6 := snd _) in *. clearbody f6. rewrite Z.mod_small by lia. istep. rewrite (Z.add_comm h). apply last_char; assumption.
Qed.
Lemma uint8 a f bc d e hl x i im i1 i2 ee (j : junk3 T) m : kept x m -> 0 <= d < 256 -> 0 <= e < 256 -> 0 <= bc < 65536 ->
  Goes (decimal8 e d) (Sr 0x20E sp a f bc (word_of d e) hl x (mkCtl i im i1 i2 ee) j) m [].
Proof.
  intros KP D E BC. destruct (KP) as (_ & _ & _ & C & _). unfold decimal8. rewrite show_lead; [|discriminate|lia|repeat constructor; lia].
  do 2 istep. apply (call8 100 0x213); try assumption; try lia.
  clear a f x j m KP C i1 i2 ee. intros a f b1 x i1 i2 j m KP. destruct (KP) as (_ & _ & _ & C & _). rewrite show_lead; [|discriminate|lia|repeat constructor; lia].
  pose proof (lead_pad e (d / 100) E) as E1. set (e1 := snd (lead e (d / 100))) in *. clearbody e1.
  do 2 istep. replace (d / 10 mod 10) with (d mod 100 / 10) by lia.
  apply (call8 10 0x218); try assumption; try lia.
  clear a f x j m KP C i1 i2. intros a f b2 x i1 i2 j m KP. rewrite show_one. replace (d mod 100 mod 10) with (d mod 10) by lia.
  apply last8; [exact KP|lia|]. apply lead_pad. exact E1.
Qed.
Lemma uint16 a f bc d e h x i im i1 i2 ee (j : junk3 T) m : kept x m -> 0 <= h < 65536 -> 0 <= e < 256 ->
  Goes (decimal16 e h) (Sr 0x234 sp a f bc (word_of d e) h x (mkCtl i im i1 i2 ee) j) m [].
Proof.
  intros KP D E. destruct (KP) as (_ & _ & _ & C & _). unfold decimal16. rewrite show_lead; [|discriminate|lia|repeat constructor; lia].
  do 2 istep. apply (call16 10000 0x23A); try assumption; try lia.
  clear a f x j m KP C i1 i2 ee. intros a f x i1 i2 j m KP. destruct (KP) as (_ & _ & _ & C & _). rewrite show_lead; [|discriminate|lia|repeat constructor; lia].
  pose proof (lead_pad e (h / 10000) E) as E1. set (e1 := snd (lead e (h / 10000))) in *. clearbody e1.
  do 2 istep. replace (h / 1000 mod 10) with (h mod 10000 / 1000) by lia.
  apply (call16 1000 0x240); try assumption; try lia.
  clear a f x j m KP C i1 i2. intros a f x i1 i2 j m KP. destruct (KP) as (_ & _ & _ & C & _). rewrite show_lead; [|discriminate|lia|repeat constructor; lia].
  pose proof (lead_pad e1 (h mod 10000 / 1000) E1) as E2. set (e2 := snd (lead e1 _)) in *. clearbody e2.
  do 2 istep. replace (h mod 10000 mod 1000) with (h mod 1000) by lia. replace (h / 100 mod 10) with (h mod 1000 / 100) by lia.
  apply (call16 100 0x246); try assumption; try lia.
  clear a f x j m KP C i1 i2. intros a f x i1 i2 j m KP. destruct (KP) as (_ & _ & _ & C & _). rewrite show_lead; [|discriminate|lia|repeat constructor; lia].
  pose proof (lead_pad e2 (h mod 1000 / 100) E2) as E3. set (e3 := snd (lead e2 _)) in *. clearbody e3.
  do 2 istep. replace (h mod 1000 mod 100) with (h mod 100) by lia. replace (h / 10 mod 10) with (h mod 100 / 10) by lia.
  apply (call16 10 0x24C); try assumption; try lia.
  clear a f x j m KP C i1 i2. intros a f x i1 i2 j m KP. rewrite show_one. replace (h mod 100 mod 10) with (h mod 10) by lia.
  apply last16; [exact KP|lia|]. apply lead_pad. exact E3.
Qed.
Ltac Zify.zify_post_hook ::= idtac.
(** RST 28h up to the routine. *)
Lemma lib8 f bc de hl x i im i1 i2 ee (j : junk3 T) m : kept x m -> 0 <= bc < 65536 -> 0 <= de < 65536 ->
  Goes (decimal8 (lo de) (hi de)) (Sr 0x28 sp 16 f bc de hl x (mkCtl i im i1 i2 ee) j) m [].
Proof.
  intros KP BC DE. destruct (KP) as (E1 & E2 & E3 & C & B & SB). do 9 istep. lazymatch goal with |- goes _ _ _ _ (Sr _ _ ?a1 ?f1 _ _ ?h1 ?x1 (mkCtl ?i0 ?m1 ?q1 ?q2 ?e1) ?jj) ?mm _ => pose proof (uint8 a1 f1 bc (hi de) (lo de) h1 x1 i0 m1 q1 q2 e1 jj mm) as U end.
  rewrite word_hi_lo in U. apply U; [unfold kept; cbn [rAF rIX rIY]; auto 9|apply hi_range; lia|apply lo_range|exact BC].
Qed.
Lemma lib16 f bc de hl x i im i1 i2 ee (j : junk3 T) m : kept x m -> 0 <= hl < 65536 ->
  Goes (decimal16 (lo de) hl) (Sr 0x28 sp 18 f bc de hl x (mkCtl i im i1 i2 ee) j) m [].
Proof.
  intros KP HL. destruct (KP) as (E1 & E2 & E3 & C & B & SB). do 9 istep. lazymatch goal with |- goes _ _ _ _ (Sr _ _ ?a1 ?f1 _ _ ?h1 ?x1 (mkCtl ?i0 ?m1 ?q1 ?q2 ?e1) ?jj) ?mm _ => pose proof (uint16 a1 f1 bc (hi de) (lo de) h1 x1 i0 m1 q1 q2 e1 jj mm) as U end.
  rewrite word_hi_lo in U. apply U; [unfold kept; cbn [rAF rIX rIY]; auto 9|exact HL|apply lo_range].
Qed.
(** A return. *)
Lemma ret_now pc a f bc de hl x i im i1 i2 ee (j : junk3 T) m : kept x m -> nth (Z.to_nat pc) kernel 255 = 201 -> 0 <= pc < 0x2000 ->
  Goes [] (Sr pc sp a f bc de hl x (mkCtl i im i1 i2 ee) j) m [].
Proof.
  intros KP E0 PC. destruct (KP) as (E1 & E2 & E3 & C & B & SB). apply goes_op; [exact PC|left; reflexivity|]. intros q j1. rewrite (C pc PC), E0.
  change (decode 201) with I_RET. body. apply g_now. split; [reflexivity|]. unfold back. rewrite ES. cbn [aPC aSP aIX aIY aAF' aHALT aPX Sr].
  rewrite <- (kept_word x m KP). split; [unfold word_at, word_of; lia|]. split; [reflexivity|]. auto 9.
Qed.
Lemma back_now a f bc de hl x i im i1 i2 (j : junk3 T) m : kept x m ->
  Goes [] (Sr (word_of (m (sp + 1)) (m sp)) (sp + 2) a f bc de hl x (mkCtl i im i1 i2 false) j) m [].
Proof.
  intros KP. destruct (KP) as (E1 & E2 & E3 & C & B & SB). apply g_now. split; [reflexivity|]. unfold back. rewrite ES. cbn [aPC aSP aIX aIY aAF' aHALT aPX Sr].
  rewrite <- (kept_word x m KP). split; [unfold word_at, word_of; lia|]. split; [reflexivity|]. auto 9.
Qed.
(** A character in the middle of a routine. *)
Lemma rst_char ret v cs f bc de hl x i im i1 i2 ee (j : junk3 T) m : kept x m -> Cf f = false -> 0 <= ret < 0x2000 ->
  (forall f x j m, kept x m -> Goes cs (Sr ret sp v f bc de hl x (mkCtl i im true true false) j) m []) ->
  Goes (v :: cs) (Sr 0x10 (sp - 2) v f bc de hl x (mkCtl i im i1 i2 ee) j) (mupd (mupd m (sp - 1) (hi ret)) (sp - 2) (lo ret)) [].
Proof.
  intros KP CF R K.
  assert (KP1 : kept x (mupd (mupd m (sp - 1) (hi ret)) (sp - 2) (lo ret))) by (apply kept_push; try lia; [exact KP|apply hi_range; lia|apply lo_range]).
  set (m1 := mupd _ _ _) in *.
  assert (W1 : m1 (sp - 2) = lo ret) by (unfold m1, mupd; now rewrite Z.eqb_refl).
  assert (W2 : m1 (sp - 1) = hi ret) by (unfold m1, mupd; rewrite Z.eqb_refl; destruct (Z.eqb_spec (sp - 1) (sp - 2)); [lia|reflexivity]).
  assert (WW : word_at m1 (sp - 2) = ret). { unfold word_at. replace (sp - 2 + 1) with (sp - 1) by lia. rewrite W1, W2. pose proof (word_hi_lo ret) as X. unfold word_of in X. lia. }
  clearbody m1. apply char_now; [exact CF|]. intros f2 x2 j2 m2 C2 B2 SB A1 A2 A3. rewrite sayg_eq, WW. replace (sp - 2 + 2) with sp by lia.
  apply K. exact (kept_print _ _ _ _ (sp - 2) KP1 ltac:(lia) SB C2 B2 A1 A2 A3).
Qed.
(** A character so many times. *)
Lemma repeat_loop n : forall b c f de hl x i im i1 i2 ee (j : junk3 T) m, kept x m -> 0 <= b < 256 -> 0 <= c < 256 -> (b - 1) mod 256 = Z.of_nat n ->
  Goes (repeat c (Datatypes.S n)) (Sr 0x1F3 sp c f (word_of b c) de hl x (mkCtl i im i1 i2 ee) j) m [].
Proof.
  induction n as [|n IH]; intros b c f de hl x i im i1 i2 ee j m KP B C BN; destruct (KP) as (_ & _ & _ & CO & _); cbn [repeat];
    istep; pose proof (Cf_or c c) as CF; rewrite or_lor, Z.lor_diag by assumption; set (f1 := snd _) in *; clearbody f1; istep; apply (rst_char 0x1F5); try assumption; try lia;
    clear f x j m KP CO f1 CF i1 i2 ee; intros f x j m KP; destruct (KP) as (_ & _ & _ & CO & _).
  - assert (b = 1) by (Z.div_mod_to_equations; lia). subst b. istep. apply ret_now; [exact KP|reflexivity|lia].
  - istep. replace (w8 (b - 1)) with (Z.of_nat (Datatypes.S n)) by (symmetry; exact BN). assert (BB : 0 < Z.of_nat (Datatypes.S n) < 256) by (pose proof (Z.mod_pos_bound (b - 1) 256 ltac:(lia)); lia).
    assert (BM : (Z.of_nat (Datatypes.S n) - 1) mod 256 = Z.of_nat n) by (rewrite Z.mod_small; lia). set (bb := Z.of_nat (Datatypes.S n)) in *. clearbody bb.
    replace (bb =? 0) with false by lia. body. apply (IH bb); try assumption; lia.
Qed.
(** A text up to a token. *)
Lemma tok_loop n : forall a f bc d e hl x i im i1 i2 ee (j : junk3 T) m, kept x m -> 0 <= e < 256 -> 0 <= hl -> hl + Z.of_nat n < 0x10000 ->
  (forall y, hl <= y <= hl + Z.of_nat n -> ~ kernels 80 sp y) -> upto_tok m0 hl e n ->
  Goes (chars m0 hl n) (Sr 0x1FE sp a f bc (word_of d e) hl x (mkCtl i im i1 i2 ee) j) m [].
Proof.
  induction n as [|n IH]; intros a f bc d e hl x i im i1 i2 ee j m KP E H1 H2 AW (U1 & U2); destruct (KP) as (_ & _ & _ & CO & BY & SB).
  - cbn [Z.of_nat] in *. rewrite Z.add_0_r in *. do 2 istep. assert (EM : m hl = e) by (rewrite SB; [exact U1|lia|apply AW; lia]). rewrite EM.
    pose proof (Zf_cp e e E E) as ZF. rewrite Z.eqb_refl in ZF. set (f1 := s_cp e e) in *. clearbody f1. istep. apply ret_now; [exact KP|reflexivity|lia].
  - pose proof (U2 0%nat ltac:(lia)) as NE. cbn [Z.of_nat] in NE. rewrite Z.add_0_r in NE.
    assert (EM : m hl = m0 hl) by (apply SB; [lia|apply AW; lia]). assert (BM : 0 <= m hl < 256) by (apply BY; lia).
    do 2 istep. pose proof (Zf_cp (m hl) e BM E) as ZF. replace (m hl =? e) with false in ZF by (rewrite EM; symmetry; apply Z.eqb_neq; exact NE).
    unfold chars. cbn [seq map Z.of_nat]. rewrite Z.add_0_r, <- EM. set (v := m hl) in *. clearbody v. set (f1 := s_cp v e) in *. clearbody f1. istep.
    istep. pose proof (Cf_or v v) as CF. rewrite or_lor, Z.lor_diag by assumption. set (f2 := snd _) in *. clearbody f2. istep.
    apply (rst_char 0x1FD); try assumption; try lia. rewrite <- seq_shift, map_map.
    clear f x j m KP CO f1 CF i1 i2 ee f2 SB BY EM ZF. intros f x j m KP. destruct (KP) as (_ & _ & _ & CO & BY & SB). istep.
    replace (map _ (seq 0 n)) with (chars m0 (hl + 1) n) by (apply map_ext; intros; f_equal; lia).
    apply IH; [exact KP|exact E|lia|lia|intros y Y; apply AW; lia|]. split.
    + rewrite <- U1. f_equal. lia.
    + intros i0 I0. specialize (U2 (Datatypes.S i0) ltac:(lia)). replace (hl + 1 + Z.of_nat i0) with (hl + Z.of_nat (Datatypes.S i0)) by lia. exact U2.
Qed.
(** A text of a given length. *)
Lemma str_loop n : forall a f bc de hl x i im i1 i2 ee (j : junk3 T) m, kept x m -> bc = Z.of_nat n -> bc < 65536 -> 0 <= hl -> hl + Z.of_nat n <= 0x10000 ->
  (forall y, hl <= y < hl + Z.of_nat n -> ~ kernels 80 sp y) ->
  Goes (chars m0 hl n) (Sr 0x204 sp a f bc de hl x (mkCtl i im i1 i2 ee) j) m [].
Proof.
  induction n as [|n IH]; intros a f bc de hl x i im i1 i2 ee j m KP E B H1 H2 AW; destruct (KP) as (E1 & E2 & E3 & CO & BY & SB).
  - cbn [Z.of_nat] in E. subst bc. do 2 istep. assert (ZF0 : Zf (snd (s_or 0 0)) = true) by reflexivity. set (f0 := snd (s_or 0 0)) in *. clearbody f0. istep. apply back_now. exact KP.
  - assert (BM : 0 <= m hl < 256) by (apply BY; lia). assert (EM : m hl = m0 hl) by (apply SB; [lia|apply AW; lia]).
    assert (LB := lo_range bc). assert (HB := hi_range bc ltac:(lia)).
    assert (NZ : fst (s_or (lo bc) (hi bc)) <> 0).
    { rewrite or_lor by assumption. rewrite Z.lor_eq_0_iff. intros (L & H). pose proof (word_hi_lo bc) as W. rewrite L, H in W. unfold word_of in W. lia. }
    do 2 istep. pose proof (Cf_or (lo bc) (hi bc)) as CF. pose proof (Zf_or (lo bc) (hi bc)) as ZF. replace (fst (s_or (lo bc) (hi bc)) =? 0) with false in ZF by (symmetry; apply Z.eqb_neq; exact NZ).
    set (f1 := snd _) in *. clearbody f1. istep. istep.
    unfold chars. cbn [seq map Z.of_nat]. rewrite Z.add_0_r, <- EM. set (v := m hl) in *. clearbody v. istep.
    apply (rst_char 0x209); try assumption; try lia. rewrite <- seq_shift, map_map.
    clear f x j m KP CO f1 CF i1 i2 ee SB BY EM ZF E1 E2 E3. intros f x j m KP. destruct (KP) as (_ & _ & _ & CO & BY & SB). istep.
    istep. istep. replace (map _ (seq 0 n)) with (chars m0 (w16 (hl + 1)) n).
    2:{ destruct n as [|n]; [reflexivity|]. rewrite w16_id by lia. apply map_ext. intros. f_equal. lia. }
    destruct n as [|n].
    + clear IH. replace (bc - 1) with 0 by lia. do 2 istep. assert (ZF0 : Zf (snd (s_or 0 0)) = true) by reflexivity. set (f0 := snd (s_or 0 0)) in *. clearbody f0. istep. apply back_now. exact KP.
    + rewrite w16_id by lia. apply IH; [exact KP|lia|lia|lia|lia|]. intros y Y. apply AW. lia.
Qed.
End Numbers.
