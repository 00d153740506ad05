(** Insertion sort of the shuffle test ([sort.insertion_asc], [sort.insertion_desc]) sorts. *)
From Coq Require Import ZArith Bool List Permutation Sorted Lia.
From Verif Require Import Base Parse Clock SpecAlu SpecState SpecIsa SpecProgram IsaRun Trace Hoare Asm Shuffle Kernel Select.
Import ListNotations.
Open Scope Z_scope.

(** The two routines are 41 bytes apart. *)
Definition ati (up : bool) (p : Z) : Z := if up then p else p + 41.
Section Insert.
Context {T WB RB : Type}.
Variable ch : chip T.
Variable P : arch T -> mem -> outs -> Z -> Prop.
Notation will := (will (WB:=WB) (RB:=RB) ch 712 1506 P).
Variable up : bool.
Notation at_ := (ati up).
Notation el := (el up).
Lemma el_next i : el (i + 1) = if up then el i + 1 else el i - 1.
Proof. unfold Select.el. destruct up; lia. Qed.

(** One element is moved. *)
Lemma ins_ldd sp a f i x (j : junk T) m o n : code m -> bytes m -> 0 <= i < 255 -> 0 <= a < 256 ->
  (forall m' f j t, code m' -> bytes m' -> m' (el (i + 1)) = m (el i) -> (forall x, x <> el (i + 1) -> m' x = m x) -> t <= n + 45 ->
    will (St (at_ (if i =? 0 then 352 else if a <? m (el (i - 1)) then 344 else 352)) sp a f i (el i) (el (i - 1)) x j) m' o t) ->
  will (St (at_ 344) sp a f (i + 1) (el (i + 1)) (el i) x j) m o n.
Proof.
  intros Hc Hm Hi Ha K. assert (R := el_range up i ltac:(lia)). assert (R1 := el_range up (i + 1) ltac:(lia)).
  assert (D := el_next i). assert (D0 := el_next (i - 1)). replace (i - 1 + 1) with i in D0 by lia.
  assert (R0 : i <> 0 -> 716 <= el (i - 1) < 972) by (intros; apply el_range; lia).
  assert (Vi := Hm (el i)). assert (V0 := Hm (el (i - 1))).
  revert K R R1 D D0 R0 Vi V0. generalize (el i) as h, (el (i + 1)) as h1, (el (i - 1)) as h0. intros.
  destruct up; unfold ati in *; [|change (344 + 41) with 385].
  all: istep; replace (i + 1 - 1) with i by lia; first [replace (h1 + -1) with h by lia; replace (h + -1) with h0 by lia | replace (h1 + 1) with h by lia; replace (h + 1) with h0 by lia]; setm m1 E1 C1.
  all: assert (B1 : bytes m1) by mem_bytes E1.
  all: assert (S1 : m1 h1 = m h) by at_mem E1.
  all: assert (S2 : forall x, x <> h1 -> m1 x = m x) by (intros y Hy; at_mem E1).
  all: istep; destruct (Z.eqb_spec i 0) as [->|N]; body; [try (change (352 + 41) with 393 in K); apply K; try assumption; lia|].
  all: istep; istep; rewrite S2 by lia.
  all: destruct (a <? m h0); body; apply K; try assumption; lia.
Qed.
(** Elements [q] to [k] moved to [q + 1] to [k + 1]. *)
Definition moved (q k : Z) (m : mem) (y : Z) : Z := if (q <? y) && (y <=? k + 1) then m (el (y - 1)) else m (el y).
Definition target (x : Z) : Prop := 716 <= x < 972.
Lemma ins_shift sp a x m o k : bytes m -> 0 <= k < 255 -> 0 <= a < 256 ->
  forall i mi f (j : junk T) n, Z.of_nat i <= k -> code mi -> bytes mi ->
  (forall y, 0 <= y <= 255 -> mi (el y) = moved (Z.of_nat i + 1) k m y) -> (forall x, ~ target x -> mi x = m x) ->
  (forall y, Z.of_nat i <= y <= k -> a < m (el y)) ->
  (forall q m' f bc hl j t, 0 <= q <= k -> code m' -> bytes m' ->
    (forall y, 0 <= y <= 255 -> m' (el y) = moved q k m y) -> (forall x, ~ target x -> m' x = m x) ->
    (forall y, q <= y <= k -> a < m (el y)) -> (q <> 0 -> m (el (q - 1)) <= a) -> t <= n + 45 * (Z.of_nat i + 1) ->
    will (St (at_ 352) sp a f bc (el q) hl x j) m' o t) ->
  will (St (at_ 344) sp a f (Z.of_nat i + 1) (el (Z.of_nat i + 1)) (el (Z.of_nat i)) x j) mi o n.
Proof.
  intros Hm Hk Ha. induction i as [|i IH]; intros mi f j n Hi Ci Bi Ei Fi Gi K.
  - apply (ins_ldd sp a f (Z.of_nat 0)); try assumption; [lia|]. intros m1 f1 j1 t1 C1 B1 S1 S2 T1. change (Z.of_nat 0) with 0 in *. cbn [Z.eqb].
    apply K; try assumption; try lia.
    + intros y Hy. destruct (Z.eq_dec y 1) as [->|N].
      * change (0 + 1) with 1 in *. rewrite S1, Ei by lia. unfold moved. replace (1 <? 0) with false by lia.
        cbn [Z.ltb Z.compare andb]. replace (1 <=? k + 1) with true by lia. reflexivity.
      * rewrite S2 by (intros E; apply el_inj in E; lia). rewrite Ei by lia. unfold moved.
        destruct (Z.ltb_spec (0 + 1) y), (Z.ltb_spec 0 y); try reflexivity; lia.
    + intros y Hy. rewrite S2; [now apply Fi|]. intros ->. apply Hy. apply el_range. lia.
  - apply (ins_ldd sp a f (Z.of_nat (S i))); try assumption; [lia|]. intros m1 f1 j1 t1 C1 B1 S1 S2 T1.
    replace (Z.of_nat (S i) =? 0) with false by lia. replace (Z.of_nat (S i) - 1) with (Z.of_nat i) by lia.
    assert (E0 : mi (el (Z.of_nat i)) = m (el (Z.of_nat i))).
    { rewrite Ei by lia. unfold moved. replace (Z.of_nat (S i) + 1 <? Z.of_nat i) with false by lia. reflexivity. }
    rewrite E0.
    assert (E1 : forall y, 0 <= y <= 255 -> m1 (el y) = moved (Z.of_nat (S i)) k m y).
    { intros y Hy. destruct (Z.eq_dec y (Z.of_nat (S i) + 1)) as [->|N].
      - rewrite S1, Ei by lia. unfold moved.
        replace (Z.of_nat (S i) + 1 <? Z.of_nat (S i)) with false by lia. replace (Z.of_nat (S i) <? Z.of_nat (S i) + 1) with true by lia.
        replace (Z.of_nat (S i) + 1 <=? k + 1) with true by lia. cbn [andb]. now replace (Z.of_nat (S i) + 1 - 1) with (Z.of_nat (S i)) by lia.
      - rewrite S2 by (intros E; apply el_inj in E; lia). rewrite Ei by lia. unfold moved.
        destruct (Z.ltb_spec (Z.of_nat (S i) + 1) y), (Z.ltb_spec (Z.of_nat (S i)) y); try reflexivity; lia. }
    assert (F1 : forall x, ~ target x -> m1 x = m x).
    { intros y Hy. rewrite S2; [now apply Fi|]. intros ->. apply Hy. apply el_range. lia. }
    destruct (Z.ltb_spec a (m (el (Z.of_nat i)))) as [L|L].
    + replace (Z.of_nat (S i)) with (Z.of_nat i + 1) in * by lia. apply IH; try assumption; try lia.
      * intros y Hy. destruct (Z.eq_dec y (Z.of_nat i)) as [->|]; [exact L|apply Gi; lia].
      * intros. apply (K q); try assumption. lia.
    + apply (K (Z.of_nat (S i))); try assumption; try lia. intros _. now replace (Z.of_nat (S i) - 1) with (Z.of_nat i) by lia.
Qed.
(** The element is put down; the next one, or the end. *)
Lemma ins_place a f bc k q hl x (j : junk T) m o n : code m -> bytes m -> 0 <= k < 255 -> 0 <= q <= k -> 0 <= a < 256 ->
  m 1500 = lo (el (k + 1)) -> m 1501 = hi (el (k + 1)) -> m 1502 = k + 1 -> m 1503 = 255 - k -> m 1504 = 13 -> m 1505 = 0 ->
  (forall m' f de j t, code m' -> bytes m' -> m' (el q) = a -> (forall x, x <> el q -> m' x = m x) -> t <= n + 60 -> k = 254 ->
    will (St 13 1506 a f 255 de (el 255) x j) m' o t) ->
  (forall m' f d j t, code m' -> bytes m' -> m' (el q) = a -> (forall x, x <> el q -> m' x = m x) -> t <= n + 60 -> k <> 254 ->
    will (St (at_ 327) 1504 a f (word_of (254 - k) (k + 1)) (word_of d (m' (el (k + 1)))) (el (k + 1)) x j) m' o t) ->
  will (St (at_ 352) 1500 a f bc (el q) hl x j) m o n.
Proof.
  intros Hc Hm Hk Hq Ha L1 H1 L2 H2 L3 H3 K1 K2. assert (Rq := el_range up q ltac:(lia)). assert (Rk := el_range up (k + 1) ltac:(lia)).
  assert (E0 : k = 254 -> el 255 = el (k + 1)) by (intros ->; reflexivity).
  revert L1 H1 K1 K2 Rq Rk E0. generalize (el q) as h, (el (k + 1)) as h1, (el 255) as h2. intros.
  destruct up; unfold ati in *; [|change (352 + 41) with 393; change (327 + 41) with 368 in K2].
  all: istep; setm m1 E1 C1.
  all: assert (B1 : bytes m1) by mem_bytes E1.
  all: assert (S1 : m1 h = a) by at_mem E1.
  all: assert (S2 : forall x, x <> h -> m1 x = m x) by (intros y Hy; at_mem E1).
  all: istep; rewrite !S2, L1, H1 by lia; words; istep; rewrite !S2, L2, H2 by lia; words; istep.
  all: replace (255 - k - 1) with (254 - k) by lia.
  all: destruct (Z.eqb_spec (254 - k) 0) as [Z|N]; body.
  1,3: istep; rewrite !S2, L3, H3 by lia; wnum; assert (k = 254) by lia; subst k; rewrite <- E0 by reflexivity; apply K1; try assumption; lia.
  all: istep; apply K2; try assumption; lia.
Qed.
Record sorted_below (m0 : mem) (k : Z) (m : mem) : Prop := mkBelow {
  sb_code : code m;
  sb_bytes : bytes m;
  sb_ret : m 1504 = 13 /\ m 1505 = 0;
  sb_frame : forall x, x < 716 \/ 972 <= x < 1500 -> m x = m0 x;
  sb_perm : Permutation (cells m0 716 256) (cells m 716 256);
  sb_sort : forall i j, 0 <= i <= j -> j <= k -> m (el i) <= m (el j) }.
Definition ix (x : Z) : Z := if up then x - 716 else 971 - x.
Lemma el_ix x : el (ix x) = x.
Proof. unfold Select.el, ix. destruct up; lia. Qed.
Lemma ix_range x : 716 <= x < 972 -> 0 <= ix x <= 255.
Proof. unfold ix. destruct up; lia. Qed.
Lemma ix_inj x y : ix x = ix y -> x = y.
Proof. unfold ix. destruct up; lia. Qed.
(** Putting element [k + 1] to place [q]. *)
Lemma below_insert m0 k m m' q : 0 <= k < 255 -> 0 <= q <= k -> sorted_below m0 k m -> code m' -> bytes m' ->
  m' (el q) = m (el (k + 1)) -> (forall y, 0 <= y <= 255 -> y <> q -> m' (el y) = moved q k m y) ->
  (forall x, x < 716 \/ 972 <= x < 1500 \/ 1503 < x -> m' x = m x) ->
  (forall y, q <= y <= k -> m (el (k + 1)) < m (el y)) -> (q <> 0 -> m (el (q - 1)) <= m (el (k + 1))) ->
  sorted_below m0 (k + 1) m'.
Proof.
  intros Hk Hq [C B [R1 R2] F M S] C' B' E1 E2 E3 G1 G2. constructor; try assumption.
  - rewrite !E3 by lia. now split.
  - intros x Hx. rewrite E3 by lia. now apply F.
  - apply (perm_trans M).
    apply (cells_perm m m' 716 256 (fun x => el (if ix x =? q then k + 1 else if (q <? ix x) && (ix x <=? k + 1) then ix x - 1 else ix x))).
    + intros x Hx. apply ix_range in Hx. apply el_range. destruct (Z.eqb_spec (ix x) q), (Z.ltb_spec q (ix x)), (Z.leb_spec (ix x) (k + 1)); cbn [andb]; lia.
    + intros x y Hx Hy E. apply ix_range in Hx, Hy. apply el_inj in E. apply ix_inj. revert E Hx Hy. generalize (ix x) as u, (ix y) as v. clear - Hk Hq. intros u v E Hx Hy.
      destruct (Z.eqb_spec u q), (Z.ltb_spec q u), (Z.leb_spec u (k + 1)); try lia; cbn [andb] in E;
        destruct (Z.eqb_spec v q), (Z.ltb_spec q v), (Z.leb_spec v (k + 1)); cbn [andb] in E; lia.
    + intros x Hx. apply ix_range in Hx. rewrite <- (el_ix x) at 1. destruct (Z.eqb_spec (ix x) q) as [->|N]; [exact E1|].
      rewrite E2 by assumption. unfold moved. now destruct ((q <? ix x) && (ix x <=? k + 1)).
  - assert (V : forall y, 0 <= y <= k + 1 -> m' (el y) = if y =? q then m (el (k + 1)) else if q <? y then m (el (y - 1)) else m (el y)).
    { intros y Hy. destruct (Z.eqb_spec y q) as [->|N]; [exact E1|]. rewrite E2 by lia. unfold moved.
      replace (y <=? k + 1) with true by lia. now rewrite andb_true_r. }
    intros i j Hi Hj. rewrite !V by lia.
    destruct (Z.eqb_spec i q), (Z.ltb_spec q i), (Z.eqb_spec j q), (Z.ltb_spec q j); try lia.
    all: try (apply S; lia).
    + assert (U := G1 (j - 1) ltac:(lia)). lia.
    + assert (U := S i (q - 1) ltac:(lia) ltac:(lia)). assert (U0 := G2 ltac:(lia)). lia.
Qed.
Lemma ins_step m0 a f d x (j : junk T) m o n k : 0 <= k < 255 -> sorted_below m0 k m ->
  (forall m' a f bc de hl j t, sorted_below m0 255 m' -> t <= n + 45 * (k + 1) + 150 -> k = 254 ->
    will (St 13 1506 a f bc de hl x j) m' o t) ->
  (forall m' a f d j t, sorted_below m0 (k + 1) m' -> t <= n + 45 * (k + 1) + 150 -> k <> 254 ->
    will (St (at_ 327) 1504 a f (word_of (254 - k) (k + 1)) (word_of d (m' (el (k + 1)))) (el (k + 1)) x j) m' o t) ->
  will (St (at_ 327) 1504 a f (word_of (255 - k) k) (word_of d (m (el k))) (el k) x j) m o n.
Proof.
  intros Hk Sk K1 K2. assert (Hc := sb_code _ _ _ Sk). assert (Hm := sb_bytes _ _ _ Sk). destruct (sb_ret _ _ _ Sk) as [Q1 Q2].
  assert (R := el_range up k ltac:(lia)). assert (R1 := el_range up (k + 1) ltac:(lia)). assert (D := el_next k).
  assert (Vk := Hm (el k)). assert (V1 := Hm (el (k + 1))).
  (* in order already *)
  assert (S0 : m (el k) <= m (el (k + 1)) -> sorted_below m0 (k + 1) m).
  { intros L. constructor; try apply Sk. intros i j1 Hi Hj. destruct (Z.eq_dec j1 (k + 1)) as [->|]; [|apply Sk; lia].
    destruct (Z.eq_dec i (k + 1)) as [->|]; [lia|]. assert (H := sb_sort _ _ _ Sk i k ltac:(lia) ltac:(lia)). lia. }
  (* not in order *)
  assert (S1 : m (el (k + 1)) < m (el k) -> forall m1 f j t, code m1 -> bytes m1 -> (forall x, x < 1500 \/ 1503 < x -> m1 x = m x) ->
    m1 1500 = lo (el (k + 1)) -> m1 1501 = hi (el (k + 1)) -> m1 1502 = k + 1 -> m1 1503 = 255 - k -> t <= n + 90 ->
    will (St (at_ 344) 1500 (m (el (k + 1))) f (k + 1) (el (k + 1)) (el k) x j) m1 o t).
  { intros L m1 f1 j1 t1 C1 B1 E1 P0 P1 P2 P3 T1.
    assert (Em : forall y, 0 <= y <= 255 -> m1 (el y) = m (el y)) by (intros y Hy; apply E1; assert (H := el_range up y Hy); lia).
    assert (M := ins_shift 1500 (m (el (k + 1))) x m1 o k B1 Hk V1 (Z.to_nat k) m1 f1 j1 t1). rewrite Z2Nat.id in M by lia.
    apply M; try assumption; try lia.
    - intros y Hy. unfold moved. destruct (Z.ltb_spec (k + 1) y), (Z.leb_spec y (k + 1)); cbn [andb]; try reflexivity; lia.
    - intros y Hy. replace y with k by lia. rewrite Em by lia. exact L.
    - clear M. intros q m2 f2 bc2 hl2 j2 t2 Hq C2 B2 E2 F2 G1 G2 T2.
      assert (X : forall m3, code m3 -> bytes m3 -> m3 (el q) = m (el (k + 1)) -> (forall x, x <> el q -> m3 x = m2 x) -> sorted_below m0 (k + 1) m3).
      { intros m3 C3 B3 S3 F3. apply (below_insert m0 k m m3 q); try assumption.
        - intros y Hy N. rewrite F3 by (intros E; apply el_inj in E; contradiction). rewrite E2 by assumption. unfold moved.
          destruct (Z.ltb_spec q y), (Z.leb_spec y (k + 1)); cbn [andb]; apply Em; lia.
        - intros y Hy. assert (Rq := el_range up q ltac:(lia)). rewrite F3 by lia. rewrite F2 by (unfold target; lia). apply E1. lia.
        - intros y Hy. rewrite <- (Em y) by lia. now apply G1.
        - intros N. rewrite <- Em by lia. now apply G2. }
      assert (Y : forall x, 972 <= x -> m2 x = m1 x) by (intros y Hy; apply F2; unfold target; lia).
      assert (Y0 : forall x, 1503 < x -> m2 x = m x) by (intros y Hy; rewrite Y by lia; apply E1; lia).
      apply (ins_place (m (el (k + 1))) f2 bc2 k q); try assumption; try (rewrite ?Y0, ?Y by lia; assumption).
      + intros m3 f3 de3 j3 t3 C3 B3 S3 F3 T3 E3. apply K1; try assumption; [|lia]. replace 255 with (k + 1) by lia. now apply X.
      + intros m3 f3 d3 j3 t3 C3 B3 S3 F3 T3 E3. apply K2; try assumption; [|lia]. now apply X. }
  revert S0 S1 K1 K2 R R1 D Vk V1. generalize (el k) as h, (el (k + 1)) as h1. intros.
  assert (HA : word_of 0 255 = 255) by reflexivity.
  destruct up; unfold ati in *; [|change (327 + 41) with 368; change (327 + 41) with 368 in K2; change (344 + 41) with 385 in S1].
  all: istep; rewrite <- D; istep; istep; istep; istep; destruct (Z.ltb_spec (m h1) (m h)) as [L|L]; body.
  2,4: specialize (S0 L); istep; istep; replace (255 - k - 1) with (254 - k) by lia; destruct (Z.eqb_spec (254 - k) 0) as [Z|N]; body;
    [ istep; rewrite Q1, Q2; wnum; apply K1; [replace 255 with (k + 1) by lia; assumption|lia..] | apply K2; [assumption|lia..] ].
  all: istep; setm m1 E1 C1; istep; setm m2 E2 C2; istep; istep; istep; istep.
  all: first [replace (h1 - 1) with h by lia | replace (h1 + 1) with h by lia].
  all: unfold word_of at 1; rewrite Z.mul_0_r, Z.add_0_l.
  all: apply S1; try assumption; try lia.
  all: try (intros y; rewrite E2, E1; repeat match goal with |- context [?a =? ?b] => destruct (a =? b) end; try apply lo_range; try (apply hi_range; lia); try lia; apply Hm).
  all: try (intros y Hy; at_mem E2; at_mem E1).
  all: rewrite E2, ?E1; reflexivity.
Qed.
(** The elements, one after the other. *)
Lemma ins_loop m0 x o : forall i m a f d (j : junk T) n, (1 <= i <= 255)%nat -> sorted_below m0 (255 - Z.of_nat i) m ->
  (forall m' a f bc de hl j t, sorted_below m0 255 m' -> 2 * t <= 2 * n + 45 * (Z.of_nat i * (511 - Z.of_nat i)) + 300 * Z.of_nat i -> will (St 13 1506 a f bc de hl x j) m' o t) ->
  will (St (at_ 327) 1504 a f (word_of (Z.of_nat i) (255 - Z.of_nat i)) (word_of d (m (el (255 - Z.of_nat i)))) (el (255 - Z.of_nat i)) x j) m o n.
Proof.
  induction i as [|i IH]; intros m a f d j n Hi Sk K; [lia|].
  assert (G := ins_step m0 a f d x j m o n (255 - Z.of_nat (S i)) ltac:(lia) Sk).
  replace (255 - (255 - Z.of_nat (S i))) with (Z.of_nat (S i)) in G by lia.
  replace (254 - (255 - Z.of_nat (S i))) with (Z.of_nat i) in G by lia.
  replace (255 - Z.of_nat (S i) + 1) with (255 - Z.of_nat i) in G by lia.
  apply G; clear G.
  - intros. apply K; [assumption|lia].
  - intros. apply IH; [lia|assumption|]. intros. apply K; [assumption|lia].
Qed.
(** The routine, from its call to its return. *)
Lemma ins_sort m0 a f bc de hl x (j : junk T) m o n : code m -> bytes m -> m 1504 = 13 -> m 1505 = 0 ->
  (forall x, x < 1500 -> m x = m0 x) ->
  (forall m' a f bc de hl j t, sorted_below m0 255 m' -> t <= n + 1507100 -> will (St 13 1506 a f bc de hl x j) m' o t) ->
  will (St (at_ 317) 1504 a f bc de hl x j) m o n.
Proof.
  intros Hc Hm R1 R2 E K.
  assert (S0 : sorted_below m0 0 m).
  { constructor; try assumption; [now split|intros; apply E; lia| |intros i i' Hi Hj; replace i with i' by lia; lia].
    rewrite (cells_ext m0 m); [reflexivity|]. intros y Hy. apply E. lia. }
  assert (G : forall a f d j t, t <= n + 40 -> will (St (at_ 327) 1504 a f (word_of 255 0) (word_of d (m (el 0))) (el 0) x j) m o t).
  { intros a1 f1 d1 j1 t1 T1. assert (L := ins_loop m0 x o (Z.to_nat 255) m a1 f1 d1 j1 t1). change (Z.of_nat (Z.to_nat 255)) with 255 in L.
    apply L; [lia|exact S0|]. intros. apply K; [assumption|lia]. }
  assert (L := lo_range bc). assert (V := Hm (el 0)). clear K. revert G V. destruct up; unfold ati, Select.el in *; change (716 + 0) with 716; change (971 - 0) with 971; intros G V.
  all: try (change (317 + 41) with 358; change (327 + 41) with 368 in G).
  all: istep; istep; istep; istep; istep; istep; apply G; lia.
Qed.
End Insert.
