(** Proofs about the CTC of the example computer. *)
From Coq Require Import ZArith Bool List Lia.
From Verif Require Import Base RalBus RalCtc SpecPio SpecCtc.
Import ListNotations.
Open Scope Z_scope.
Ltac Zify.zify_post_hook ::= Z.div_mod_to_equations.

Ltac step H :=
  match type of H with
  | match ?x with Some _ => _ | None => None end = Some _ => let E := fresh "E" in destruct x eqn:E; [|discriminate H]
  end.
Lemma add32_eq a b c : add32 a b = Some c -> c = a + b.
Proof. unfold add32. destruct (_ <? _); [now intros [= <-]|discriminate]. Qed.
Lemma mul32_eq a b c : mul32 a b = Some c -> c = a * b.
Proof. unfold mul32. destruct (_ <? _); [now intros [= <-]|discriminate]. Qed.
Fixpoint pulse_all {W} (g : trig W) (ts : list Z) (w : W) : option W :=
  match ts with [] => Some w | t :: ts => match tg_pulse g t w with Some w => pulse_all g ts w | None => None end end.
Lemma set_int_twice c : cc_set_int (cc_set_int c) = cc_set_int c.
Proof. unfold cc_set_int. destruct c as [a b c d e f g h i j k l m]. cbn. destruct k; reflexivity. Qed.
Lemma set_int_factor c : cc_factor (cc_set_int c) = cc_factor c.
Proof. unfold cc_set_int, cc_factor. now destruct c as [a b c d e f g h i j [] l m]. Qed.

Section Loop.
Ltac Zify.zify_post_hook ::= idtac.
Context {W : Type} (g : trig W).
Lemma loop_spec f P : 1 <= f -> 1 <= P -> forall fuel y z u c w r, cc_factor c = f -> 1 <= z -> 0 <= y ->
  timer_loop g fuel (f * P) (f * y) (f * z) u c w = Some r ->
  let m := if z <=? y then 1 + (y - z) / P else 0 in
  exists w', pulse_all g (map (fun j => u + z + Z.of_nat j * P) (seq 0 (Z.to_nat m))) w = Some w' /\
  r = if m =? 0 then (c, w, (f * y, f * z, u)) else (cc_set_int c, w', (f * ((y - z) mod P), f * P, u + z + (m - 1) * P)).
Proof.
  intros F P0. induction fuel as [|fuel IH]; intros y z u c w r FC Z1 Y0 H; cbn [timer_loop] in H.
  - destruct (Z.leb_spec (f * z) (f * y)); [discriminate|]. destruct (Z.leb_spec z y); [nia|]. injection H as <-. exists w. auto.
  - destruct (Z.leb_spec (f * z) (f * y)) as [L|L].
    2:{ destruct (Z.leb_spec z y); [nia|]. injection H as <-. exists w. auto. }
    destruct (Z.leb_spec z y) as [L'|L']; [|nia]. cbn zeta.
    step H. apply add32_eq in E. rewrite FC, (Z.mul_comm f z), Z.div_mul in E by lia. subst z0. step H.
    replace (f * y - f * z) with (f * (y - z)) in H by ring.
    assert (FC' : cc_factor (cc_set_int c) = f) by now rewrite set_int_factor.
    destruct (IH (y - z) P (u + z) (cc_set_int c) w0 r FC' P0 ltac:(lia) H) as (w' & PW & ->).
    assert (Q0 : 0 <= (y - z) / P) by (apply Z.div_pos; lia).
    destruct (Z.eqb_spec (1 + (y - z) / P) 0) as [N|_]; [lia|].
    replace (Z.to_nat (1 + (y - z) / P)) with (S (Z.to_nat ((y - z) / P))) by lia.
    assert (M : (if P <=? y - z then 1 + (y - z - P) / P else 0) = (y - z) / P).
    { destruct (Z.leb_spec P (y - z)); [|symmetry; apply Z.div_small; lia]. replace (y - z) with ((y - z - P) + 1 * P) at 2 by ring. rewrite Z.div_add by lia. ring. }
    rewrite M in *. exists w'. split.
    + cbn [seq map pulse_all]. replace (u + z + Z.of_nat 0 * P) with (u + z) by ring. rewrite E. rewrite <- seq_shift, map_map.
      rewrite <- PW. f_equal. apply map_ext. intro j. nia.
    + rewrite set_int_twice. destruct (Z.eqb_spec ((y - z) / P) 0) as [N|N].
      * assert (PW0 : pulse_all g (map (fun j => u + z + P + Z.of_nat j * P) (seq 0 (Z.to_nat ((y - z) / P)))) w0 = Some w0) by (rewrite N; reflexivity).
        assert (w' = w0) by congruence. subst w'. rewrite N. replace ((y - z) mod P) with (y - z) by (symmetry; apply Z.mod_small; apply Z.div_small_iff in N; lia).
        replace (u + z + (1 + 0 - 1) * P) with (u + z) by ring. reflexivity.
      * f_equal. f_equal; [|ring]. f_equal. f_equal. rewrite <- (Z.mod_add (y - z - P) 1 P) by lia. f_equal. ring.
Qed.
End Loop.
Ltac Zify.zify_post_hook ::= Z.div_mod_to_equations.

Definition factor (x16 : bool) : Z := if x16 then 16 else 1.
Definition period (x16 : bool) (r : Z) : Z := tick x16 * span r.
(** A channel with a running timer, looked at last at [L]. *)
Record running (x16 : bool) (r s L : Z) (c : cchan) : Prop := mkRunning {
  rn_restart : cc_restart c = Some r; rn_range : 0 <= r < 256; rn_mode : cc_counter c = false; rn_last : cc_last c = Some L; rn_start : s <= L;
  rn_x16 : cc_x16 c = x16; rn_tci : 1 <= cc_tci c <= 256; rn_cur : 0 <= cc_cur c < 256;
  rn_count : 256 * u8 (cc_cur c - 1) + cc_tci c = factor x16 * (period x16 r - (L - s) mod period x16 r) }.
Lemma period_pos x16 r : 0 <= r < 256 -> 16 <= period x16 r <= 65536.
Proof. unfold period, tick, span. intro. destruct x16, (Z.eqb_spec r 0); lia. Qed.
Lemma full_eq x16 r : 256 * (if r =? 0 then 256 else r) = factor x16 * period x16 r.
Proof. unfold factor, period, tick, span. destruct x16, (r =? 0); ring. Qed.
Lemma running_cur x16 r s L c : running x16 r s L c -> cc_cur c = counter_at x16 r s L.
Proof.
  intros [_ R _ _ S _ T C K]. unfold counter_at. rewrite Z.max_r by lia. unfold period in K. set (x := L - s) in *. clearbody x.
  assert (N : 1 <= span r <= 256) by (unfold span; destruct (Z.eqb_spec r 0); lia). set (n := span r) in *. clearbody n. unfold u8 in K.
  assert (D : x mod (tick x16 * n) = x mod tick x16 + tick x16 * ((x / tick x16) mod n)) by (apply Z.rem_mul_r; unfold tick; destruct x16; lia).
  rewrite D in K. assert (Q : 0 <= (x / tick x16) mod n < n) by (apply Z.mod_pos_bound; lia). set (q := (x / tick x16) mod n) in *. clearbody q.
  assert (E : 0 <= x mod tick x16 < tick x16) by (apply Z.mod_pos_bound; unfold tick; destruct x16; lia). set (e := x mod tick x16) in *. clearbody e.
  clear D. unfold factor, tick in *. destruct x16; lia.
Qed.
Definition rest (x16 : bool) (r s t : Z) : Z := period x16 r - (t - s) mod period x16 r.
Lemma zeros_eq x16 r s t : s <= t -> zeros x16 r s t = (t - s) / period x16 r.
Proof. intro H. unfold zeros. now rewrite Z.max_r by lia. Qed.
Lemma step_arith P x y : 1 <= P -> 0 <= x -> 0 <= y -> let z := P - x mod P in let m := if z <=? y then 1 + (y - z) / P else 0 in
  m = (x + y) / P - x / P /\ P - (x + y) mod P = (if m =? 0 then z - y else P - (y - z) mod P) /\ z = (x / P + 1) * P - x.
Proof.
  intros P1 X Y z m. assert (B := Z.mod_pos_bound x P ltac:(lia)). assert (DM := Z.div_mod x P ltac:(lia)). subst z m. set (b := x mod P) in *. set (q := x / P) in *. clearbody b q.
  split; [|split; [|lia]].
  - replace (x + y) with ((b + y) + q * P) by lia. rewrite Z.div_add by lia. destruct (Z.leb_spec (P - b) y) as [L|L].
    + replace (b + y) with ((y - (P - b)) + 1 * P) by lia. rewrite Z.div_add by lia. lia.
    + rewrite Z.div_small by lia. lia.
  - replace (x + y) with ((b + y) + q * P) by lia. rewrite Z.mod_add by lia. destruct (Z.leb_spec (P - b) y) as [L|L].
    + assert (0 <= (y - (P - b)) / P) by (apply Z.div_pos; lia). destruct (Z.eqb_spec (1 + (y - (P - b)) / P) 0); [exfalso; revert H e; generalize ((y - (P - b)) / P); intros; lia|].
      f_equal. rewrite <- (Z.mod_add (y - (P - b)) 1 P) by lia. f_equal. ring.
    + rewrite Z.mod_small by lia. cbn. ring.
Qed.
Lemma count_split k : 1 <= k <= 65536 -> if k mod 256 =? 0 then 256 * u8 (u8 (k / 256) - 1) + 256 = k else 256 * u8 (u8 (u8 (k / 256) + 1) - 1) + k mod 256 = k /\ 1 <= k mod 256 <= 256.
Proof. unfold u8. intro. destruct (Z.eqb_spec (k mod 256) 0); lia. Qed.
Lemma u8_range' k : 0 <= u8 k < 256.
Proof. unfold u8. lia. Qed.
Lemma rest_range x16 r s t : 0 <= r < 256 -> 1 <= rest x16 r s t <= period x16 r /\ 1 <= factor x16 * rest x16 r s t <= 65536.
Proof.
  intro R. assert (P1 := period_pos x16 r R). unfold rest. assert (B := Z.mod_pos_bound (t - s) (period x16 r) ltac:(lia)). assert (F := full_eq x16 r).
  set (m := (t - s) mod period x16 r) in *. clearbody m. assert (factor x16 * period x16 r <= 65536) by (rewrite <- F; destruct (Z.eqb_spec r 0); lia).
  set (P := period x16 r) in *. clearbody P. clear F. unfold factor in *. destruct x16; lia.
Qed.
Ltac Zify.zify_post_hook ::= idtac.
Lemma process_running {W} (g : trig W) x16 r s L t c w c' w' : running x16 r s L c -> process g t c w = Some (c', w') ->
  exists w1 h, tg_purge g t w = Some (w1, h) /\
  if L <? t then
    running x16 r s t c' /\ cc_await c' = cc_await c /\ cc_etrig c' = cc_etrig c /\ cc_ints c' = cc_ints c /\
    cc_int c' = cc_int c || cc_ints c && (zeros x16 r s L <? zeros x16 r s t) /\
    pulse_all g (map (fun j => zero_time x16 r s (zeros x16 r s L + 1 + Z.of_nat j)) (seq 0 (Z.to_nat (zeros x16 r s t - zeros x16 r s L)))) w1 = Some w' /\
    cc_hint c' = (if zeros x16 r s L <? zeros x16 r s t then 0 else t + rest x16 r s t)
  else c' = set_hint (L + 1) c /\ w' = w1.
Proof.
  intros RN H. assert (P1 := period_pos x16 r (rn_range _ _ _ _ _ RN)). destruct RN as [A1 A2 A3 A4 A5 A6 A7 A8 A9].
  unfold process in H. rewrite A1, A3, A4 in H. destruct (tg_purge g t w) as [[w1 h]|]; [|discriminate]. exists w1, h. split; [reflexivity|].
  destruct (Z.ltb_spec L t) as [LT|LT].
  2:{ step H. apply add32_eq in E. subst z. injection H as <- <-. auto. }
  rewrite !zeros_eq by lia. assert (FC : cc_factor c = factor x16) by (unfold cc_factor, factor; now rewrite A6). assert (F1 : 1 <= factor x16) by (unfold factor; destruct x16; lia).
  step H. apply mul32_eq in E. rewrite FC in E. subst z. rewrite A9, (full_eq x16), (Z.mul_comm (t - L)) in H. set (P := period x16 r) in *.
  assert (B := Z.mod_pos_bound (L - s) P ltac:(lia)). step H.
  destruct (loop_spec g (factor x16) P F1 ltac:(lia) _ (t - L) (P - (L - s) mod P) L c w1 p FC ltac:(lia) ltac:(lia) E) as (w2 & PW & ->).
  destruct (step_arith P (L - s) (t - L) ltac:(lia) ltac:(lia) ltac:(lia)) as (M & K & Z1). replace (L - s + (t - L)) with (t - s) in * by lia.
  cbn zeta in *. set (z := P - (L - s) mod P) in *. set (m := if z <=? t - L then 1 + (t - L - z) / P else 0) in *.
  assert (NC : exists c1, (if m =? 0 then (c, w1, (factor x16 * (t - L), factor x16 * z, L)) else (cc_set_int c, w2, (factor x16 * ((t - L - z) mod P), factor x16 * P, L + z + (m - 1) * P)))
      = (c1, w2, (if m =? 0 then factor x16 * (t - L) else factor x16 * ((t - L - z) mod P), if m =? 0 then factor x16 * z else factor x16 * P, if m =? 0 then L else L + z + (m - 1) * P)) /\
     cc_factor c1 = factor x16 /\ cc_x16 c1 = cc_x16 c /\ cc_restart c1 = cc_restart c /\ cc_counter c1 = cc_counter c /\ cc_await c1 = cc_await c /\ cc_etrig c1 = cc_etrig c /\ cc_ints c1 = cc_ints c /\ cc_int c1 = cc_int c || cc_ints c && negb (m =? 0)).
  { destruct (Z.eqb_spec m 0) as [M0|M0].
    - exists c. rewrite M0 in PW. cbn in PW. injection PW as ->. cbn [negb]. rewrite andb_false_r, orb_false_r. auto 12.
    - exists (cc_set_int c). split; [reflexivity|]. rewrite set_int_factor. unfold cc_set_int. destruct (cc_ints c) eqn:I; cbn [set_hint set_int cc_x16 cc_restart cc_counter cc_await cc_etrig cc_ints cc_int]; rewrite ?I; cbn [negb andb]; rewrite ?orb_true_r, ?orb_false_r; auto 12. }
  destruct NC as (c1 & EQ & C0 & C1 & C2 & C3 & C4 & C5 & C6 & C7). rewrite EQ in H. clear EQ E.
  set (d' := if m =? 0 then factor x16 * (t - L) else factor x16 * ((t - L - z) mod P)) in *. set (k' := if m =? 0 then factor x16 * z else factor x16 * P) in *.
  assert (KK : k' - d' = factor x16 * rest x16 r s t).
  { unfold rest. fold P. rewrite K. subst k' d'. destruct (m =? 0); ring. }
  rewrite KK in H. destruct (rest_range x16 r s t A2) as [RB KB].
  assert (M0 : 0 <= m). { subst m. destruct (Z.leb_spec z (t - L)); [|lia]. assert (0 <= (t - L - z) / P) by (apply Z.div_pos; lia). revert H1. generalize ((t - L - z) / P). intros. lia. }
  assert (MZ : ((L - s) / P <? (t - s) / P) = negb (m =? 0)).
  { rewrite M in *. revert M0. generalize ((t - s) / P), ((L - s) / P). intros. destruct (Z.ltb_spec z1 z0), (Z.eqb_spec (z0 - z1) 0); cbn; lia. }
  rewrite MZ. rewrite C0 in H. rewrite (Z.mul_comm (factor x16) (rest _ _ _ _)), Z.div_mul in H by lia. rewrite (Z.mul_comm (rest _ _ _ _)) in H.
  assert (HU : (if (if m =? 0 then L else L + z + (m - 1) * P) =? L then add32 t (rest x16 r s t) else Some 0) = if m =? 0 then add32 t (rest x16 r s t) else Some 0).
  { destruct (Z.eqb_spec m 0); [now rewrite Z.eqb_refl|]. destruct (Z.eqb_spec (L + z + (m - 1) * P) L); [nia|reflexivity]. }
  rewrite HU in H. step H. assert (HH : z0 = if m =? 0 then t + rest x16 r s t else 0) by (destruct (m =? 0); [now apply add32_eq in E|congruence]).
  injection H as <- <-. set (kk := factor x16 * rest x16 r s t) in *.
  assert (ZT : forall j, zero_time x16 r s ((L - s) / P + 1 + Z.of_nat j) = L + z + Z.of_nat j * P).
  { intro j. unfold zero_time. fold (period x16 r). fold P. rewrite Z1. ring. }
  assert (PP : pulse_all g (map (fun j => zero_time x16 r s ((L - s) / P + 1 + Z.of_nat j)) (seq 0 (Z.to_nat ((t - s) / P - (L - s) / P)))) w1 = Some w2).
  { rewrite <- M. rewrite <- PW. f_equal. apply map_ext. exact ZT. }
  assert (NEG : (if negb (m =? 0) then 0 else t + rest x16 r s t) = (if m =? 0 then t + rest x16 r s t else 0)) by (now destruct (m =? 0)).
  rewrite NEG, HH.
  destruct (Z.eqb_spec (kk mod 256) 0) as [K0|K0]; cbn [set_hint set_last set_tci set_cur cc_restart cc_counter cc_last cc_x16 cc_tci cc_cur cc_await cc_etrig cc_ints cc_int cc_hint].
  - assert (SP := count_split kk KB). rewrite (proj2 (Z.eqb_eq _ _) K0) in SP.
    split; [|rewrite C4, C5, C6, C7; auto 8]. split; cbn [set_hint set_last set_tci set_cur cc_restart cc_counter cc_last cc_x16 cc_tci cc_cur]; try congruence; try lia; try apply u8_range'; exact SP.
  - assert (SP := count_split kk KB). rewrite (proj2 (Z.eqb_neq _ _) K0) in SP. destruct SP as [SP1 SP2].
    split; [|rewrite C4, C5, C6, C7; auto 8]. split; cbn [set_hint set_last set_tci set_cur cc_restart cc_counter cc_last cc_x16 cc_tci cc_cur]; try congruence; try lia; try apply u8_range'; exact SP1.
Qed.
Ltac Zify.zify_post_hook ::= Z.div_mod_to_equations.
