(** Selection sort of the shuffle test ([sort.selection_asc], [sort.selection_desc]) sorts. *)
From Coq Require Import ZArith Bool List Permutation Sorted Lia.
From Verif Require Import Base Parse Clock SpecAlu SpecState SpecIsa SpecProgram IsaRun Trace Hoare Asm Shuffle Kernel.
Import ListNotations.
Open Scope Z_scope.

(** [up]: ascending, which works from the end of the array downwards.  The two routines are 31 bytes apart. *)
Definition at_ (up : bool) (p : Z) : Z := if up then p else p + 31.
Definition el (up : bool) (i : Z) : Z := if up then 716 + i else 971 - i.
Lemma el_range up i : 0 <= i <= 255 -> 716 <= el up i < 972.
Proof. unfold el. destruct up; lia. Qed.
Lemma el_inj up i j : el up i = el up j -> i = j.
Proof. unfold el. destruct up; lia. Qed.
Section Select.
Context {T WB RB : Type}.
Variable ch : chip T.
Variable P : arch T -> mem -> outs -> Z -> Prop.
Notation will := (will (WB:=WB) (RB:=RB) ch 712 1506 P).
Variable up : bool.
Notation at_ := (at_ up).
Notation el := (el up).

(** One comparison. *)
Lemma sel_cp sp a f b c de hl x (j : junk T) m o n : code m -> bytes m -> 1 <= b < 256 -> 0 <= c < 256 -> 1 <= hl < 256 ->
  (forall f j t, t <= n + 48 ->
    will (St (at_ (if b =? 1 then 276 else 267)) sp (Z.max a (m (el (hl - 1)))) f (word_of (b - 1) c)
            (if a <? m (el (hl - 1)) then el (hl - 1) else de) (el (hl - 1)) x j) m o t) ->
  will (St (at_ 267) sp a f (word_of b c) de (el hl) x j) m o n.
Proof.
  intros Hc Hm Hb Hcc Hh K.
  assert (E0 : el (hl - 1) = if up then el hl - 1 else el hl + 1) by (unfold el; destruct up; lia).
  rewrite E0 in K. clear E0. assert (R := el_range up hl ltac:(lia)). revert R K. generalize (el hl) as h. intros h R K.
  destruct up; unfold Select.at_ in *; 
    [ istep; istep; istep; destruct (Z.ltb_spec a (m (h - 1))) as [E|E]; body; [rewrite Z.max_r in K by lia | rewrite Z.max_l in K by lia]
    | change (267 + 31) with 298; istep; istep; istep; destruct (Z.ltb_spec a (m (h + 1))) as [E|E]; body; [rewrite Z.max_r in K by lia | rewrite Z.max_l in K by lia] ].
  all: repeat istep.
  all: (destruct (Z.eqb_spec b 1) as [->|N]; change (1 - 1 =? 0) with true; body; [|replace (b - 1 =? 0) with false by lia; body]; apply K; lia).
Qed.
(** The maximum of the elements up to [k]. *)
Lemma sel_max sp c x m o k : code m -> bytes m -> 0 <= c < 256 -> 0 <= k <= 255 ->
  forall nb p f (j : junk T) n, 1 <= Z.of_nat nb <= p -> p <= k -> (forall i, Z.of_nat nb <= i <= k -> m (el i) <= m (el p)) ->
  (forall p f j t, 0 <= p <= k -> (forall i, 0 <= i <= k -> m (el i) <= m (el p)) -> t <= n + 48 * Z.of_nat nb ->
    will (St (at_ 276) sp (m (el p)) f (word_of 0 c) (el p) (el 0) x j) m o t) ->
  will (St (at_ 267) sp (m (el p)) f (word_of (Z.of_nat nb) c) (el p) (el (Z.of_nat nb)) x j) m o n.
Proof.
  intros Hc Hm Hcc Hk. induction nb as [|nb IH]; intros p f j n Hb Hp Hmax K; [lia|].
  apply sel_cp; try assumption; try lia. intros f' j' t Ht.
  replace (Z.of_nat (S nb) - 1) with (Z.of_nat nb) by lia.
  set (p' := if m (el p) <? m (el (Z.of_nat nb)) then Z.of_nat nb else p).
  assert (Hp' : Z.of_nat nb <= p' <= k) by (unfold p'; destruct (_ <? _); lia).
  assert (E1 : Z.max (m (el p)) (m (el (Z.of_nat nb))) = m (el p')).
  { unfold p'. destruct (Z.ltb_spec (m (el p)) (m (el (Z.of_nat nb)))); lia. }
  assert (E2 : (if m (el p) <? m (el (Z.of_nat nb)) then el (Z.of_nat nb) else el p) = el p').
  { unfold p'. destruct (_ <? _); reflexivity. }
  assert (Hmax' : forall i, Z.of_nat nb <= i <= k -> m (el i) <= m (el p')).
  { intros i Hi. destruct (Z.eq_dec i (Z.of_nat nb)) as [->|]; [lia|]. assert (H := Hmax i ltac:(lia)). lia. }
  rewrite E1, E2. destruct nb as [|nb].
  - change (Z.of_nat 1 =? 1) with true. cbv iota. apply K; [lia|exact Hmax'|lia].
  - replace (Z.of_nat (S (S nb)) =? 1) with false by lia. apply IH; [lia|lia|exact Hmax'|].
    intros p2 f2 j2 t2 H1 H2 H3. apply K; [assumption..|lia].
Qed.
(** The exchange after a pass. *)
Definition back (h : Z) : Z := if up then h - 1 else h + 1.
Lemma sel_swap f k q h hl x (j : junk T) m o n : code m -> bytes m -> 1 <= k < 256 -> 716 <= h < 972 -> 716 <= q < 972 ->
  m 1502 = lo h -> m 1503 = hi h ->
  (forall m' f j t, code m' -> bytes m' -> m' h = m q -> m' q = m h -> (forall x, x <> h -> x <> q -> m' x = m x) -> t <= n + 58 ->
    will (St (at_ (if k =? 1 then 285 else 262)) 1504 (m h) f (word_of (k - 1) (m h)) q (back h) x j) m' o t) ->
  will (St (at_ 276) 1502 (m q) f (word_of 0 k) q hl x j) m o n.
Proof.
  intros Hc Hm Hk Hh Hq L1 H1 K. unfold back in K. assert (Vq := Hm q). assert (Vh := Hm h).
  assert (G : exists b, b = (k =? 1)) by eauto. destruct G as [b Gb]. rewrite <- Gb in K.
  destruct up; unfold Select.at_ in *; 
    [ istep; istep; rewrite L1, H1; words; istep; istep; setm m1 E1 C1; istep; istep; setm m2 E2 C2; istep; istep
    | change (276 + 31) with 307; istep; istep; rewrite L1, H1; words; istep; istep; setm m1 E1 C1; istep; istep; setm m2 E2 C2; istep; istep ].
  all: assert (Z1 : m2 h = m q) by (at_mem E2; at_mem E1; congruence).
  all: assert (Z2 : m2 q = m h) by (at_mem E2; at_mem E1; congruence).
  all: assert (Z3 : forall x, x <> h -> x <> q -> m2 x = m x) by (intros y Y1 Y2; at_mem E2; at_mem E1; congruence).
  all: assert (Z4 : bytes m2) by (intros y; rewrite E2, E1; destruct (y =? q), (y =? h); try lia; apply Hm).
  all: subst b; destruct (Z.eqb_spec k 1) as [->|N]; change (1 - 1 =? 0) with true; body; [|replace (k - 1 =? 0) with false by lia; body].
  all: apply K; try assumption; lia.
Qed.
(** One pass: the maximum goes to place [k]. *)
Lemma sel_pass a f c de x (j : junk T) m o n k : code m -> bytes m -> 1 <= k <= 255 -> 0 <= c < 256 ->
  (forall p m' a f c de j t, 0 <= p <= k -> (forall i, 0 <= i <= k -> m (el i) <= m (el p)) ->
    code m' -> bytes m' -> m' (el k) = m (el p) -> m' (el p) = m (el k) ->
    (forall x, x < 1502 \/ 1503 < x -> x <> el k -> x <> el p -> m' x = m x) -> 0 <= c < 256 -> t <= n + 48 * k + 88 ->
    will (St (at_ (if k =? 1 then 285 else 262)) 1504 a f (word_of (k - 1) c) de (el (k - 1)) x j) m' o t) ->
  will (St (at_ 262) 1504 a f (word_of k c) de (el k) x j) m o n.
Proof.
  intros Hc Hm Hk Hcc K. assert (R := el_range up k ltac:(lia)).
  assert (S1 : forall m', code m' -> bytes m' -> m' 1502 = lo (el k) -> m' 1503 = hi (el k) -> (forall x, x < 1502 \/ 1503 < x -> m' x = m x) ->
    forall j t, t <= n + 30 -> will (St (at_ 267) 1502 (m' (el k)) f (word_of k k) (el k) (el k) x j) m' o t).
  { intros m1 C1 B1 L1 H1 E1 j1 t1 T1.
    assert (M := sel_max 1502 k x m1 o k C1 B1 ltac:(lia) ltac:(lia) (Z.to_nat k) k f j1 t1). rewrite Z2Nat.id in M by lia.
    apply M; [lia|lia|intros i Hi; replace i with k by lia; lia|]. clear M.
    intros p f2 j2 t2 Hp Hmax T2. assert (Rp := el_range up p ltac:(lia)).
    assert (Ek : m1 (el k) = m (el k)) by (apply E1; lia). assert (Ep : m1 (el p) = m (el p)) by (apply E1; lia).
    assert (Hmax' : forall i, 0 <= i <= k -> m (el i) <= m (el p)).
    { intros i Hi. assert (Ri := el_range up i ltac:(lia)). rewrite <- Ep, <- E1 by lia. now apply Hmax. }
    apply (sel_swap f2 k (el p) (el k)); try assumption; try lia.
    intros m2 f3 j3 t3 C2 B2 S1 S2 S3 T3. replace (back (el k)) with (el (k - 1)) by (unfold back, Select.el; destruct up; lia).
    apply (K p); try assumption; try congruence; try lia; [|apply B1].
    intros y Y1 Y2 Y3. rewrite S3 by assumption. now apply E1. }
  assert (Vk := Hm (el k)). revert R S1 Vk. generalize (el k) as h. intros h R S1 Vk. clear K.
  destruct up; unfold Select.at_ in *;
   [ istep; istep; istep; istep; istep; setm m1 E1 C1 | change (262 + 31) with 293; istep; istep; istep; istep; istep; setm m1 E1 C1 ].
  all: replace (m h) with (m1 h) by at_mem E1; apply S1; try assumption; try lia.
  all: try (intros y Hy; at_mem E1).
  all: try (now rewrite E1).
  all: intros y; rewrite E1; destruct (y =? 1502); [apply lo_range|]; destruct (y =? 1503); [apply hi_range; lia|]; apply Hm.
Qed.
(** The passes. *)
Record sorted_above (m0 : mem) (k : Z) (m : mem) : Prop := mkSorted {
  sa_code : code m;
  sa_bytes : bytes m;
  sa_ret : m 1504 = 13 /\ m 1505 = 0;
  sa_frame : forall x, x < 716 \/ 972 <= x < 1502 -> m x = m0 x;
  sa_perm : Permutation (cells m0 716 256) (cells m 716 256);
  sa_max : forall i j, 0 <= i <= j -> k < j <= 255 -> m (el i) <= m (el j) }.
Lemma sorted_pass m0 k m m' p : 1 <= k <= 255 -> sorted_above m0 k m -> 0 <= p <= k -> (forall i, 0 <= i <= k -> m (el i) <= m (el p)) ->
  code m' -> bytes m' -> m' (el k) = m (el p) -> m' (el p) = m (el k) ->
  (forall x, x < 1502 \/ 1503 < x -> x <> el k -> x <> el p -> m' x = m x) -> sorted_above m0 (k - 1) m'.
Proof.
  intros Hk [C B [R1 R2] F M S] Hp Hmax C' B' E1 E2 E3. assert (Rk := el_range up k ltac:(lia)). assert (Rp := el_range up p ltac:(lia)).
  assert (G : forall i, 0 <= i <= 255 -> m' (el i) = if i =? k then m (el p) else if i =? p then m (el k) else m (el i)).
  { intros i Hi. destruct (Z.eqb_spec i k) as [->|N1]; [assumption|]. destruct (Z.eqb_spec i p) as [->|N2]; [assumption|].
    assert (Ri := el_range up i ltac:(lia)). apply E3; [lia|intros E; apply el_inj in E; contradiction..]. }
  constructor; try assumption.
  - rewrite !E3 by lia. now split.
  - intros x Hx. rewrite E3 by lia. now apply F.
  - apply (perm_trans M). apply (cells_swap m m' 716 256 (el k) (el p)); try assumption.
    intros x Hx N1 N2. apply E3; try assumption; lia.
  - intros i j Hi Hj. rewrite !G by lia. destruct (Z.eqb_spec j k) as [->|].
    + destruct (Z.eqb_spec i k); [lia|]. destruct (Z.eqb_spec i p); apply Hmax; lia.
    + destruct (Z.eqb_spec j p); [lia|]. destruct (Z.eqb_spec i k); [apply S; lia|]. destruct (Z.eqb_spec i p); apply S; lia.
Qed.
Lemma sel_loop m0 x o : forall k m a f c de (j : junk T) n, 1 <= Z.of_nat k <= 255 -> sorted_above m0 (Z.of_nat k) m -> 0 <= c < 256 ->
  (forall m' a f bc de hl j t, sorted_above m0 0 m' -> t <= n + 24 * (Z.of_nat k * (Z.of_nat k + 1)) + 88 * Z.of_nat k ->
     will (St (at_ 285) 1504 a f bc de hl x j) m' o t) ->
  will (St (at_ 262) 1504 a f (word_of (Z.of_nat k) c) de (el (Z.of_nat k)) x j) m o n.
Proof.
  induction k as [|k IH]; intros m a f c de j n Hk Sk Hcc K; [lia|].
  apply sel_pass; [apply Sk|apply Sk|lia|assumption|].
  intros p m1 a1 f1 c1 de1 j1 t1 Hp Hmax C1 B1 E1 E2 E3 Hc1 Ht1.
  assert (S1 := sorted_pass m0 _ m m1 p Hk Sk Hp Hmax C1 B1 E1 E2 E3).
  replace (Z.of_nat (S k) - 1) with (Z.of_nat k) in * by lia.
  destruct k as [|k].
  - change (Z.of_nat 1 =? 1) with true. cbv iota. apply K; [exact S1|lia].
  - replace (Z.of_nat (S (S k)) =? 1) with false by lia. apply IH; [lia|exact S1|assumption|].
    intros. apply K; [assumption|]. lia.
Qed.
(** The routine, from its call to its return. *)
Lemma sel_sort m0 a f bc de hl x (j : junk T) m o n : code m -> bytes m -> m 1504 = 13 -> m 1505 = 0 ->
  (forall x, x < 1502 -> m x = m0 x) ->
  (forall m' a f bc de hl j t, sorted_above m0 0 m' -> t <= n + 1589220 -> will (St 13 1506 a f bc de hl x j) m' o t) ->
  will (St (at_ 255) 1504 a f bc de hl x j) m o n.
Proof.
  intros Hc Hm R1 R2 E K.
  assert (S0 : sorted_above m0 255 m).
  { constructor; try assumption; [now split|intros; apply E; lia| |intros; lia].
    rewrite (cells_ext m0 m); [reflexivity|]. intros y Hy. apply E. lia. }
  assert (G : forall a f j c t, 0 <= c < 256 -> t <= n + 26 -> will (St (at_ 262) 1504 a f (word_of 255 c) de (el 255) x j) m o t).
  { intros. assert (L := sel_loop m0 x o (Z.to_nat 255) m a0 f0 c de j0 t). change (Z.of_nat (Z.to_nat 255)) with 255 in L.
    apply L; [lia|exact S0|assumption|]. intros m' a1 f1 bc1 de1 hl1 j1 t1 S1 T1.
    assert (C1 := sa_code _ _ _ S1). destruct (sa_ret _ _ _ S1) as [Q1 Q2]. assert (H1 := K m'). clear - C1 Q1 Q2 H1 S1 T1 H0.
    destruct up; unfold Select.at_ in *; [|change (285 + 31) with 316]; istep; rewrite Q1, Q2; apply H1; try assumption; lia. }
  assert (L := lo_range bc). clear K. destruct up; unfold Select.at_, Select.el in *;
    [ istep; istep; istep; istep | change (255 + 31) with 286; change (262 + 31) with 293 in G; istep; istep; istep; istep ].
  all: apply G; lia.
Qed.
End Select.
