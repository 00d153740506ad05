(** Proofs about a timer of the CTC while other things happen to the chip. *)
From Coq Require Import ZArith Bool List Lia.
From Verif Require Import Base RalBus RalPio SpecPio RalPioProofs RalCtc SpecCtc RalCtcProofs RalCtcChip.
Import ListNotations.
Open Scope Z_scope.
Ltac Zify.zify_post_hook ::= idtac.

Section Channel.
Context {W : Type} (g : trig W).
Lemma down_await r t c w c' w' b : downcount g r t c w = Some (c', w', b) -> cc_await c' = cc_await c.
Proof.
  unfold downcount. cbn zeta. destruct (_ =? 0).
  - intro H. step H. injection H as <- _ _. unfold cc_set_int. destruct (cc_ints _); reflexivity.
  - intros [= <- _ _]. reflexivity.
Qed.
Lemma count_await fuel r t : forall c w c' w', count_loop g fuel r t c w = Some (c', w') -> cc_await c' = cc_await c.
Proof.
  induction fuel as [|fuel IH]; intros c w c' w' H; [discriminate|]. cbn [count_loop] in H. step H. destruct p as [w1 [[] u]].
  - step H. destruct p as [[c1 w2] []]; apply down_await in E0; [injection H as <- _; exact E0|]. apply IH in H. congruence.
  - injection H as <- _. reflexivity.
Qed.
Lemma timer_await fuel full : forall d k u c w c' w' r, timer_loop g fuel full d k u c w = Some (c', w', r) -> cc_await c' = cc_await c.
Proof.
  induction fuel as [|fuel IH]; intros d k u c w c' w' r H; cbn [timer_loop] in H; (destruct (k <=? d); [|injection H as <- _ _; reflexivity]); [discriminate|].
  step H. step H. apply IH in H. rewrite H. unfold cc_set_int. destruct (cc_ints c); reflexivity.
Qed.
Lemma start_await t c c' : start_timer t c = Some c' -> cc_await c' = cc_await c.
Proof. unfold start_timer. intro H. step H. injection H as <-. reflexivity. Qed.
Lemma wait_await fuel x t : forall c w c' w', wait_loop g fuel x t c w = Some (c', w') -> cc_await c' = cc_await c.
Proof.
  induction fuel as [|fuel IH]; intros c w c' w' H; [discriminate|]. cbn [wait_loop] in H. step H. destruct p as [w1 [[] u]].
  - destruct (x <=? u); [|now apply IH in H]. step H. injection H as <- _. now apply start_await in E0.
  - injection H as <- _. reflexivity.
Qed.
Lemma process_await t c w c' w' : process g t c w = Some (c', w') -> cc_await c' = cc_await c.
Proof.
  unfold process. cbn zeta. destruct (cc_restart c) as [r|].
  - destruct (cc_counter c); [apply count_await|]. destruct (cc_last c) as [s|].
    + intro H. step H. destruct p as [w1 h]. destruct (s <? t).
      * step H. step H. destruct p as [[c1 w2] [[d k] u]]. apply timer_await in E1. step H. injection H as <- _. destruct (_ =? 0); exact E1.
      * step H. injection H as <- _. reflexivity.
    + destruct (cc_ext c) as [x|]; [apply wait_await|]. intro H. step H. destruct p as [w1 h]. injection H as <- _. reflexivity.
  - intro H. step H. destruct p as [w1 h]. injection H as <- _. reflexivity.
Qed.

Record armed (x16 ints : bool) (c : cchan) : Prop := mkArmed {
  ar_restart : cc_restart c = None; ar_mode : cc_counter c = false; ar_last : cc_last c = None; ar_ext : cc_ext c = None; ar_etrig : cc_etrig c = false;
  ar_await : cc_await c = true; ar_x16 : cc_x16 c = x16; ar_ints : cc_ints c = ints; ar_tci : cc_tci c = 256 }.
Lemma write_arms v t c w c' w' b : timer_word v -> cc_await c = false -> cc_write g v t c w = Some (c', w', b) -> armed (negb (Z.testbit v 5)) (Z.testbit v 7) c'.
Proof.
  intros (V0 & V1 & V2 & V3 & V6) A H. unfold cc_write in H. step H. destruct p as [c1 w1]. apply process_await in E. rewrite A in E. rewrite E, V0, V1, V2, V3, V6 in H.
  cbn zeta in H. set (c2 := if Z.testbit v 7 then _ else _) in H.
  assert (F : cc_restart c2 = None /\ cc_last c2 = None /\ cc_ext c2 = None /\ cc_await c2 = true /\ cc_x16 c2 = negb (Z.testbit v 5) /\ cc_ints c2 = Z.testbit v 7 /\ cc_tci c2 = 256).
  { subst c2. destruct (Z.testbit v 7); cbn; auto 10. }
  clearbody c2. clear E A. destruct c2 as [f1 f2 f3 f4 f5 f6 f7 f8 f9 f10 f11 f12 f13].
  cbn [cc_x16 cc_counter cc_hint cc_last cc_ext cc_tci cc_restart cc_cur cc_await cc_etrig cc_ints cc_int cc_rise] in F. destruct F as (-> & -> & -> & -> & -> & -> & ->).
  clear V0 V1 V2 V3 V6; destruct f2, f10, f13, (Z.testbit v 4); cbn in H; (injection H as <- _ _; split; reflexivity).
Qed.
Lemma armed_process x16 ints t c w c' w' : armed x16 ints c -> process g t c w = Some (c', w') -> armed x16 ints c' /\ cc_int c' = cc_int c.
Proof. intros [A1 A2 A3 A4 A5 A6 A7 A8 A9] H. unfold process in H. rewrite A1 in H. cbn zeta in H. step H. destruct p as [w1 h]. injection H as <- _. split; [split; assumption|reflexivity]. Qed.
Lemma armed_second x16 ints t c w c' w' : armed x16 ints c -> cc_second g t c w = Some (c', w') -> armed x16 ints c'.
Proof.
  intros [A1 A2 A3 A4 A5 A6 A7 A8 A9] H. unfold cc_second in H. rewrite A3, A4 in H. cbn zeta in H. step H. injection H as <- _. split; assumption.
Qed.
Lemma armed_int x16 ints c : armed x16 ints c -> armed x16 ints (set_int false c).
Proof. intros [A1 A2 A3 A4 A5 A6 A7 A8 A9]. split; assumption. Qed.
Lemma constant x16 ints n t c w c' w' b : 0 <= n < 256 -> armed x16 ints c -> cc_write g n t c w = Some (c', w', b) ->
  running x16 n (t + 1) (t + 1) c' /\ cc_hint c' = t + 1 /\ cc_ints c' = ints /\ cc_int c' = cc_int c.
Proof.
  intros N A H. unfold cc_write in H. step H. destruct p as [c1 w1]. apply (armed_process x16 ints) in E as [[A1 A2 A3 A4 A5 A6 A7 A8 A9] I]; [|exact A].
  rewrite A6 in H. cbn zeta in H. cbn [set_await cc_restart] in H. rewrite A1 in H. cbn [is_none set_await set_restart set_cur cc_counter cc_last cc_etrig] in H. rewrite A2, A3, A5 in H. cbn [is_none] in H. step H. injection H as <- _ _.
  unfold start_timer in E. step E. apply add32_eq in E0. subst z. injection E as <-. split; [|auto].
  split; cbn [set_hint set_last set_restart set_cur set_await cc_restart cc_counter cc_last cc_x16 cc_tci cc_cur]; rewrite ?A9; try assumption; try reflexivity; try lia.
  rewrite Z.sub_diag, Zmod_0_l, Z.sub_0_r, <- full_eq. unfold u8. destruct (Z.eqb_spec n 0) as [->|NZ]; [reflexivity|]. rewrite Z.mod_small by lia. lia.
Qed.
Lemma zeros_shift x16 r s t k : zeros x16 r (s - k) (t - k) = zeros x16 r s t.
Proof. unfold zeros. now replace (t - k - (s - k)) with (t - s) by lia. Qed.
Lemma rest_shift x16 r s t k : rest x16 r (s - k) (t - k) = rest x16 r s t.
Proof. unfold rest. now replace (t - k - (s - k)) with (t - s) by lia. Qed.
Lemma counter_shift x16 r s t k : counter_at x16 r (s - k) (t - k) = counter_at x16 r s t.
Proof. unfold counter_at. now replace (t - k - (s - k)) with (t - s) by lia. Qed.
Lemma running_second x16 r s L n c w c' w' : running x16 r s L c -> cc_second g n c w = Some (c', w') ->
  n <= L /\ running x16 r (s - n) (L - n) c' /\ cc_hint c' = shrink n (cc_hint c) /\ cc_ints c' = cc_ints c /\ cc_int c' = cc_int c.
Proof.
  intros [A1 A2 A3 A4 A5 A6 A7 A8 A9] H. unfold cc_second in H. rewrite A4 in H. destruct (Z.leb_spec n L) as [NL|]; [|discriminate]. cbn zeta in H. step H. injection H as <- _.
  split; [exact NL|]. cbn [set_last cc_ext]. destruct (cc_ext c); (split; [|auto]); split; cbn [set_hint set_ext set_last cc_restart cc_counter cc_last cc_x16 cc_tci cc_cur]; try assumption; try reflexivity; try lia;
    now replace (L - n - (s - n)) with (L - s) by lia.
Qed.
Lemma running_int x16 r s L c : running x16 r s L c -> running x16 r s L (set_int false c).
Proof. intros [A1 A2 A3 A4 A5 A6 A7 A8 A9]. split; assumption. Qed.
Lemma running_hint x16 r s L h c : running x16 r s L c -> running x16 r s L (set_hint h c).
Proof. intros [A1 A2 A3 A4 A5 A6 A7 A8 A9]. split; assumption. Qed.
Lemma zeros_mono x16 r s a b : 0 <= r < 256 -> a <= b -> zeros x16 r s a <= zeros x16 r s b.
Proof. intros R H. unfold zeros. apply Z.div_le_mono; [|lia]. change (0 < period x16 r). assert (P := period_pos x16 r R). lia. Qed.
(** The next time the timer comes to zero. *)
Definition due (x16 : bool) (r s L : Z) : Z := L + rest x16 r s L.
Lemma due_eq x16 r s L : 0 <= r < 256 -> s <= L -> due x16 r s L = zero_time x16 r s (zeros x16 r s L + 1).
Proof.
  intros R H. unfold due, rest, zero_time. rewrite (zeros_eq _ _ _ _ H). change (tick x16 * span r) with (period x16 r). assert (P := period_pos x16 r R).
  assert (DM := Z.div_mod (L - s) (period x16 r) ltac:(lia)). revert DM. generalize ((L - s) / period x16 r), ((L - s) mod period x16 r). intros. nia.
Qed.
Lemma zero_time_le x16 r s j t : 0 <= r < 256 -> 1 <= j -> zero_time x16 r s j <= t <-> j <= zeros x16 r s t.
Proof.
  intros R J. unfold zero_time, zeros. change (tick x16 * span r) with (period x16 r). assert (P := period_pos x16 r R).
  split; intro H.
  - apply Z.div_le_lower_bound; nia.
  - assert (B := Z.mul_div_le (Z.max 0 (t - s)) (period x16 r) ltac:(lia)). destruct (Z.le_gt_cases (t - s) 0); [|nia].
    rewrite Z.max_l in * by lia. rewrite Zdiv_0_l in H. lia.
Qed.
Lemma due_mono x16 r s a b : 0 <= r < 256 -> s <= a -> a <= b -> due x16 r s a <= due x16 r s b.
Proof.
  intros R S H. rewrite !due_eq by lia. assert (M := zeros_mono x16 r s a b R H). unfold zero_time. change (tick x16 * span r) with (period x16 r). assert (P := period_pos x16 r R). nia.
Qed.
Lemma due_passed x16 r s L t : 0 <= r < 256 -> s <= L -> due x16 r s L <= t <-> zeros x16 r s L < zeros x16 r s t.
Proof. intros R S. rewrite due_eq by lia. assert (0 <= zeros x16 r s L). { unfold zeros. apply Z.div_pos; [lia|]. change (0 < period x16 r). assert (P := period_pos x16 r R). lia. } rewrite zero_time_le by lia. lia. Qed.
(** One look at a running timer, in whatever order of times. *)
Lemma look x16 r s L t c w c' w' : 0 <= L -> running x16 r s L c -> process g t c w = Some (c', w') -> 
  exists L', L' = Z.max L t /\ running x16 r s L' c' /\ cc_ints c' = cc_ints c /\ cc_int c' = cc_int c || cc_ints c && (zeros x16 r s L <? zeros x16 r s L') /\ cc_hint c' <= due x16 r s L'.
Proof.
  intros L0 RN H. assert (R := rn_range _ _ _ _ _ RN). assert (S := rn_start _ _ _ _ _ RN). destruct (process_running g _ _ _ _ _ _ _ _ _ RN H) as (w1 & h & _ & Q). exists (Z.max L t). split; [reflexivity|].
  destruct (Z.ltb_spec L t) as [LT|LT].
  - rewrite Z.max_r by lia. destruct Q as (Q1 & _ & _ & Q2 & Q3 & _ & Q4). split; [exact Q1|]. split; [exact Q2|]. split; [exact Q3|]. rewrite Q4. unfold due. destruct (rest_range x16 r s t R) as [B _].
    destruct (_ <? _); lia.
  - rewrite Z.max_l by lia. destruct Q as [-> _]. split; [now apply running_hint|]. cbn [set_hint cc_ints cc_int cc_hint]. rewrite Z.ltb_irrefl, andb_false_r, orb_false_r. split; [reflexivity|]. split; [reflexivity|].
    unfold due. destruct (rest_range x16 r s L R). lia.
Qed.
End Channel.

Lemma chan_four i : 0 <= i < 4 -> chan_no i.
Proof. unfold chan_no. lia. Qed.

Section Run.
Context {W D : Type} (g0 g1 g2 g3 : trig W) (dv : dev D) (i : Z) (I : chan_no i).
Notation chip := (chip g0 g1 g2 g3 dv).
Notation ctc := (ctc W D).
Record timing (x16 : bool) (r s now h L : Z) (p : ctc) : Prop := mkTiming {
  ti_run : running x16 r s L (ct_chan i p); ti_pos : 0 <= L; ti_now : L <= Z.max now s; ti_hint : cc_hint (ct_chan i p) <= due x16 r s L; ti_chip : ct_hint p <= Z.max h (due x16 r s L) }.
Definition taken (o : bop) : Z := match o with BSecond n => n | _ => 0 end.
Definition later (now : Z) (o : bop) : Z := match o with BSecond n => now - n | _ => op_time o end.
Definition ordered (now : Z) (o : bop) : Prop := match o with BSecond n => 0 <= n | _ => now <= op_time o end.
Definition step_ok (x16 : bool) (r s now h L : Z) (o : bop) (x : ans) (p p' : ctc) (L' : Z) : Prop :=
  timing x16 r (s - taken o) (later now o) (h - taken o) L' p' /\ zeros x16 r s L <= zeros x16 r (s - taken o) L' /\ cc_ints (ct_chan i p') = cc_ints (ct_chan i p) /\
  (no_ack o -> (ct_ieo p = false -> ct_ieo p' = false) /\ cc_int (ct_chan i p') = cc_int (ct_chan i p) || cc_ints (ct_chan i p) && (zeros x16 r s L <? zeros x16 r (s - taken o) L')) /\
  match o with
  | BIn q t => q mod 256 = 4 + i -> x = AByte (counter_at x16 r s t)
  | BIrq t => ct_ieo p = false -> (cc_int (ct_chan i p') = true -> x = ALine true) /\ (h <= t -> zeros x16 r s t <= zeros x16 r s L')
  | _ => True
  end.
Lemma still x16 r s now h L t p p' : now <= t -> timing x16 r s now h L p -> ct_chan i p' = ct_chan i p -> ct_hint p' = ct_hint p -> timing x16 r s t h L p'.
Proof. intros O [A1 A2 A3 A4 A5] E1 E2. split; rewrite ?E1, ?E2; try assumption; lia. Qed.
Lemma glance x16 r s now h L t p p' : now <= t -> timing x16 r s now h L p -> looked g0 g1 g2 g3 i t p p' -> ct_hint p' = ct_hint p \/ ct_hint p' <= cc_hint (ct_chan i p') ->
  exists L', L' = Z.max L t /\ timing x16 r s t h L' p' /\ zeros x16 r s L <= zeros x16 r s L' /\ cc_ints (ct_chan i p') = cc_ints (ct_chan i p) /\
    cc_int (ct_chan i p') = cc_int (ct_chan i p) || cc_ints (ct_chan i p) && (zeros x16 r s L <? zeros x16 r s L').
Proof.
  intros O [A1 A2 A3 A4 A5] (w & w' & P) H. assert (R := rn_range _ _ _ _ _ A1). assert (S := rn_start _ _ _ _ _ A1). destruct (look _ _ _ _ _ _ _ _ _ _ A2 A1 P) as (L' & EL & B1 & B2 & B3 & B4).
  exists L'. split; [exact EL|]. assert (M := zeros_mono x16 r s L L' R ltac:(lia)). assert (N := due_mono x16 r s L L' R S ltac:(lia)). split; [|auto].
  split; try assumption; lia.
Qed.
Lemma scan_timing x16 r s now h L t p p' : now <= t -> timing x16 r s now h L p -> scanned g0 g1 g2 g3 i t p p' ->
  exists L', timing x16 r s t h L' p' /\ zeros x16 r s L <= zeros x16 r s L' /\ cc_ints (ct_chan i p') = cc_ints (ct_chan i p) /\
    cc_int (ct_chan i p') = cc_int (ct_chan i p) || cc_ints (ct_chan i p) && (zeros x16 r s L <? zeros x16 r s L') /\ (h <= t -> zeros x16 r s t <= zeros x16 r s L').
Proof.
  intros O T SC. assert (R := rn_range _ _ _ _ _ (ti_run _ _ _ _ _ _ _ T)). assert (S := rn_start _ _ _ _ _ (ti_run _ _ _ _ _ _ _ T)). unfold scanned in SC.
  assert (STAY : ct_chan i p' = ct_chan i p -> ct_hint p' <= Z.max h (due x16 r s L) -> (h <= t -> t < due x16 r s L) ->
    exists L', timing x16 r s t h L' p' /\ zeros x16 r s L <= zeros x16 r s L' /\ cc_ints (ct_chan i p') = cc_ints (ct_chan i p) /\
    cc_int (ct_chan i p') = cc_int (ct_chan i p) || cc_ints (ct_chan i p) && (zeros x16 r s L <? zeros x16 r s L') /\ (h <= t -> zeros x16 r s t <= zeros x16 r s L')).
  { intros E1 E2 E3. exists L. rewrite E1, Z.ltb_irrefl, andb_false_r, orb_false_r. destruct T as [A1 A2 A3 A4 A5]. split; [split; rewrite ?E1; try assumption; lia|]. split; [lia|]. split; [reflexivity|]. split; [reflexivity|].
    intro HT. apply E3 in HT. assert (DP := due_passed x16 r s L t R S). lia. }
  destruct (Z.leb_spec (ct_hint p) t) as [HT|HT].
  - destruct SC as [SC HM]. destruct (_ || _) eqn:DU.
    + destruct (glance x16 r s now h L t p p' O T SC (or_intror HM)) as (L' & EL & B1 & B2 & B3 & B4). exists L'. split; [exact B1|]. split; [exact B2|]. split; [exact B3|]. split; [exact B4|]. intros _. apply zeros_mono; [exact R|lia].
    + apply STAY; [exact SC| |].
      * rewrite SC in HM. assert (A4 := ti_hint _ _ _ _ _ _ _ T). lia.
      * intros _. apply orb_false_elim in DU as [DU _]. assert (A4 := ti_hint _ _ _ _ _ _ _ T). lia.
  - destruct SC as [SC HM]. assert (A5 := ti_chip _ _ _ _ _ _ _ T). apply STAY; [exact SC|lia|lia].
Qed.
Lemma timing_step x16 r s now h L o x p p' : dev_do chip o p = Some (p', x) -> untouched i o -> ordered now o -> timing x16 r s now h L p -> exists L', step_ok x16 r s now h L o x p p' L'.
Proof.
  intros DO [U1 U2] O T. apply (do_goes g0 g1 g2 g3 dv i _ _ _ _ I) in DO. assert (R := rn_range _ _ _ _ _ (ti_run _ _ _ _ _ _ _ T)). assert (S := rn_start _ _ _ _ _ (ti_run _ _ _ _ _ _ _ T)).
  assert (STAY : forall t, now <= t -> ct_chan i p' = ct_chan i p -> ct_hint p' = ct_hint p -> timing x16 r (s - 0) t (h - 0) L p' /\ zeros x16 r s L <= zeros x16 r (s - 0) L /\ cc_ints (ct_chan i p') = cc_ints (ct_chan i p) /\
     cc_int (ct_chan i p') = cc_int (ct_chan i p) || cc_ints (ct_chan i p) && (zeros x16 r s L <? zeros x16 r (s - 0) L)).
  { intros t NT E1 E2. rewrite !Z.sub_0_r, Z.ltb_irrefl, andb_false_r, orb_false_r, E1. split; [now apply (still x16 r s now h L t p p')|]. split; [lia|]. auto. }
  unfold step_ok. destruct o as [t|t|t|n|q t|q v t|t|pc t|pc t]; cbn [goes taken later ordered op_time no_ack] in *; [discriminate| | | | | | | |].
  - destruct DO as [SC IE]. destruct (scan_timing _ _ _ _ _ _ _ _ _ O T SC) as (L' & B1 & B2 & B3 & B4 & _). exists L'. rewrite !Z.sub_0_r, IE. auto 10.
  - destruct DO as [SC IE]. destruct (scan_timing _ _ _ _ _ _ _ _ _ O T SC) as (L' & B1 & B2 & B3 & B4 & _). exists L'. rewrite !Z.sub_0_r, IE. auto 10.
  - destruct DO as (HS & IE & w & w' & CS). destruct T as [A1 A2 A3 A4 A5]. destruct (running_second _ _ _ _ _ _ _ _ _ _ A1 CS) as (NL & B1 & B2 & B3 & B4). exists (L - n).
    rewrite zeros_shift, Z.ltb_irrefl, andb_false_r, orb_false_r. split; [|rewrite IE; auto 10 with zarith]. unfold due in *. destruct (rest_range x16 r s L R) as [RR _].
    split; unfold due; rewrite ?rest_shift, ?HS, ?B2; unfold shrink; try assumption; try lia; [destruct (Z.leb_spec n (cc_hint (ct_chan i p))); lia|destruct (Z.leb_spec n (ct_hint p)); lia].
  - destruct DO as [IE DO]. destruct (Z.eqb_spec (q mod 256) (4 + i)) as [Q|Q].
    + destruct DO as (HS & LK & X). destruct (glance _ _ _ _ _ _ _ _ _ O T LK (or_introl HS)) as (L' & EL & B1 & B2 & B3 & B4). exists L'. rewrite !Z.sub_0_r, IE. split; [exact B1|]. split; [exact B2|]. split; [exact B3|]. split; [auto|].
      intros _. rewrite X. f_equal. rewrite (running_cur x16 r s L'); [|exact (ti_run _ _ _ _ _ _ _ B1)]. assert (A3 := ti_now _ _ _ _ _ _ _ T). unfold counter_at. now replace (Z.max 0 (L' - s)) with (Z.max 0 (t - s)) by lia.
    + destruct DO as [D1 D2]. exists L. rewrite IE. destruct (STAY t O D1 D2) as (Y1 & Y2 & Y3 & Y4). split; [exact Y1|]. split; [exact Y2|]. split; [exact Y3|]. split; [auto|]. intro. contradiction.
  - destruct DO as [IE DO]. cbn [word_to] in U2. destruct (Z.eqb_spec (q mod 256) (4 + i)) as [Q|Q]; [discriminate|].
    destruct DO as [D1 D2]. exists L. rewrite IE. destruct (STAY t O D1 D2) as (Y1 & Y2 & Y3 & Y4). split; [exact Y1|]. split; [exact Y2|]. split; [exact Y3|]. split; auto.
  - destruct DO as [IE DO]. destruct (ct_ieo p) eqn:IP.
    + destruct DO as [-> _]. exists L. destruct (STAY t O eq_refl eq_refl) as (Y1 & Y2 & Y3 & Y4). split; [exact Y1|]. split; [exact Y2|]. split; [exact Y3|]. split; [|discriminate]. intros _. split; [discriminate|exact Y4].
    + destruct DO as [SC X]. destruct (scan_timing _ _ _ _ _ _ _ _ _ O T SC) as (L' & B1 & B2 & B3 & B4 & B5). exists L'. rewrite !Z.sub_0_r, IE. auto 10.
  - destruct DO as [HS DO]. exists L. rewrite !Z.sub_0_r. assert (T' := still x16 r s now h L t p p' O T).
    assert (TT : timing x16 r s t h L p'). { destruct DO as [DO|DO]; [now apply T'|]. destruct T as [A1 A2 A3 A4 A5]. split; rewrite ?DO, ?HS; try assumption; [now apply running_int|lia]. }
    split; [exact TT|]. split; [lia|]. split; [destruct DO as [-> | ->]; reflexivity|]. split; [contradiction|exact Logic.I].
  - destruct DO as ((D1 & D2) & I1 & I2). exists L. destruct (STAY t O D1 D2) as (Y1 & Y2 & Y3 & Y4). split; [exact Y1|]. split; [exact Y2|]. split; [exact Y3|]. split; [auto|exact Logic.I].
Qed.
Lemma armed_step x16 ints o x p p' : dev_do chip o p = Some (p', x) -> untouched i o -> armed x16 ints (ct_chan i p) -> armed x16 ints (ct_chan i p').
Proof.
  intros DO [U1 U2] A. apply (do_goes g0 g1 g2 g3 dv i _ _ _ _ I) in DO.
  assert (SC : forall t, scanned g0 g1 g2 g3 i t p p' -> armed x16 ints (ct_chan i p')).
  { intros t H. unfold scanned in H. destruct (_ <=? t) in H; [|destruct H as [-> _]; exact A]. destruct H as [H _]. destruct (_ || _); [|now rewrite H]. destruct H as (w & w' & H). apply (armed_process _ _ _ _ _ _ _ _ A H). }
  destruct o as [t|t|t|n|q t|q v t|t|pc t|pc t]; cbn [goes] in DO; [discriminate| | | | | | | |].
  - apply (SC t), DO.
  - apply (SC t), DO.
  - destruct DO as (_ & _ & w & w' & H). apply (armed_second _ _ _ _ _ _ _ _ A H).
  - destruct DO as [_ DO]. destruct (_ =? _) in DO; [|destruct DO as [-> _]; exact A]. destruct DO as (_ & (w & w' & H) & _). apply (armed_process _ _ _ _ _ _ _ _ A H).
  - destruct DO as [_ DO]. cbn [word_to] in U2. destruct (_ =? _) in DO, U2; [discriminate|]. destruct DO as [-> _]; exact A.
  - destruct DO as [_ DO]. destruct (ct_ieo p); [destruct DO as [-> _]; exact A|]. apply (SC t), DO.
  - destruct DO as [_ [-> | ->]]; [exact A|now apply armed_int].
  - destruct DO as [[-> _] _]. exact A.
Qed.
Lemma armed_ops x16 ints ops : forall p p' l, dev_ops chip ops p = Some (p', l) -> Forall (untouched i) ops -> armed x16 ints (ct_chan i p) -> armed x16 ints (ct_chan i p').
Proof.
  induction ops as [|o ops IH]; intros p p' l H F A; cbn [dev_ops] in H; [injection H as <- _; exact A|]. destruct (dev_do chip o p) as [[p1 x]|] eqn:E; [|discriminate].
  apply opt_inv in H as ([p2 l'] & H & Q). injection Q as -> _. inversion_clear F as [|? ? F1 F2]. apply (IH _ _ _ H F2). exact (armed_step _ _ _ _ _ _ E F1 A).
Qed.
Lemma in_time_cons now o ops : in_time now (o :: ops) -> ordered now o /\ in_time (later now o) ops.
Proof. destruct o; cbn [in_time ordered later]; intros [? ?]; auto. split; [lia|assumption]. Qed.
Lemma clock_cons now o ops : clock now (o :: ops) = clock (later now o) ops.
Proof. destruct o; reflexivity. Qed.
Lemma wrapped_cons o ops : wrapped (o :: ops) = taken o + wrapped ops.
Proof. destruct o; cbn [wrapped taken]; lia. Qed.
Lemma timing_ops x16 r ops : forall s now h L p p' l, dev_ops chip ops p = Some (p', l) -> Forall (untouched i) ops -> in_time now ops -> timing x16 r s now h L p ->
  exists L', timing x16 r (s - wrapped ops) (clock now ops) (h - wrapped ops) L' p' /\ zeros x16 r s L <= zeros x16 r (s - wrapped ops) L' /\ cc_ints (ct_chan i p') = cc_ints (ct_chan i p) /\
  (Forall no_ack ops -> (ct_ieo p = false -> ct_ieo p' = false) /\ cc_int (ct_chan i p') = cc_int (ct_chan i p) || cc_ints (ct_chan i p) && (zeros x16 r s L <? zeros x16 r (s - wrapped ops) L')).
Proof.
  induction ops as [|o ops IH]; intros s now h L p p' l H F O T; cbn [dev_ops] in H.
  - injection H as <- _. exists L. cbn [wrapped clock]. rewrite !Z.sub_0_r, Z.ltb_irrefl, andb_false_r, orb_false_r. split; [exact T|]. split; [lia|]. auto.
  - destruct (dev_do chip o p) as [[p1 x]|] eqn:E; [|discriminate]. apply opt_inv in H as ([p2 l'] & H & Q). injection Q as -> _. inversion_clear F as [|? ? F1 F2]. apply in_time_cons in O as [O1 O2].
    destruct (timing_step _ _ _ _ _ _ _ _ _ _ E F1 O1 T) as (L1 & T1 & Z1 & J1 & K1 & _). destruct (IH _ _ _ _ _ _ _ H F2 O2 T1) as (L2 & T2 & Z2 & J2 & K2). exists L2.
    rewrite wrapped_cons, clock_cons. rewrite !Z.sub_add_distr. cbn [fst]. split; [exact T2|]. split; [lia|]. split; [congruence|]. intro NA. inversion_clear NA as [|? ? N1 N2]. destruct (K1 N1) as [K3 K4]. destruct (K2 N2) as [K5 K6].
    split; [auto|]. rewrite K6, K4, J1. rewrite <- orb_assoc. f_equal. rewrite <- andb_orb_distrib_r. f_equal.
    destruct (Z.ltb_spec (zeros x16 r s L) (zeros x16 r (s - taken o) L1)), (Z.ltb_spec (zeros x16 r (s - taken o) L1) (zeros x16 r (s - taken o - wrapped ops) L2)), (Z.ltb_spec (zeros x16 r s L) (zeros x16 r (s - taken o - wrapped ops) L2)); cbn; lia.
Qed.
Lemma dev_ops_app a b p p' l : dev_ops chip (a ++ b) p = Some (p', l) -> exists p1 l1 l2, dev_ops chip a p = Some (p1, l1) /\ dev_ops chip b p1 = Some (p', l2) /\ l = l1 ++ l2.
Proof.
  revert p l. induction a as [|o a IH]; intros p l H; cbn [app dev_ops] in *; [exists p, [], l; auto|]. destruct (dev_do chip o p) as [[p1 x]|]; [|discriminate].
  apply opt_inv in H as ([p2 l'] & H & Q). injection Q as -> ->. destruct (IH _ _ H) as (p3 & l1 & l2 & E1 & E2 & E3). exists p3, ((o, x) :: l1), l2. rewrite E1. cbn [option_map fst snd]. cbn [snd] in E3. rewrite E3. auto.
Qed.
Lemma dev_ops_one o p p' l : dev_ops chip [o] p = Some (p', l) -> exists x, dev_do chip o p = Some (p', x) /\ l = [(o, x)].
Proof. cbn [dev_ops]. destruct (dev_do chip o p) as [[p1 x]|]; [|discriminate]. cbn. intros [= -> <-]. eauto. Qed.
Lemma started v n t ops p p' l : starts_timer i v n t ops -> cc_await (ct_chan i p) = false -> dev_ops chip ops p = Some (p', l) ->
  timing (negb (Z.testbit v 5)) n (t + 1) t (ct_hint p') (t + 1) p' /\ cc_ints (ct_chan i p') = Z.testbit v 7.
Proof.
  intros (q1 & t1 & mid & q2 & -> & Q1 & Q2 & V & N & T0 & U) A H. change (BOut q1 v t1 :: mid ++ [BOut q2 n t]) with ([BOut q1 v t1] ++ mid ++ [BOut q2 n t]) in H.
  apply dev_ops_app in H as (p1 & l1 & l2 & H1 & H & _). apply dev_ops_one in H1 as (x1 & H1 & _). apply (do_goes g0 g1 g2 g3 dv i _ _ _ _ I) in H1. cbn [goes] in H1. rewrite Q1, Z.eqb_refl in H1.
  destruct H1 as (_ & _ & w & w' & b & H1). apply write_arms in H1; [|exact V|exact A]. apply dev_ops_app in H as (p2 & l3 & l4 & H2 & H & _). assert (A2 := armed_ops _ _ _ _ _ _ H2 U H1).
  apply dev_ops_one in H as (x2 & H & _). apply (do_goes g0 g1 g2 g3 dv i _ _ _ _ I) in H. cbn [goes] in H. rewrite Q2, Z.eqb_refl in H. destruct H as (_ & HH & w2 & w2' & b2 & H).
  apply (constant _ _ _ _ _ _ _ _ _ _ N A2) in H as (R & HI & IN & _). split; [|exact IN]. assert (RR := rest_range (negb (Z.testbit v 5)) n (t + 1) (t + 1) N). split; unfold due; try assumption; lia.
Qed.
Lemma in_time_app a b now : in_time now (a ++ b) -> in_time now a /\ in_time (clock now a) b.
Proof. revert now. induction a as [|o a IH]; intros now H; [split; [exact Logic.I|exact H]|]. cbn [app] in H. destruct o; cbn [in_time clock] in *; destruct H as [H1 H2]; apply IH in H2 as [H2 H3]; auto. Qed.
Lemma wrapped_app a b : wrapped (a ++ b) = wrapped a + wrapped b.
Proof. induction a as [|o a IH]; [reflexivity|]. destruct o; cbn [app wrapped]; rewrite IH; lia. Qed.
Lemma read_timer v n t2 start ops q t p p' l : starts_timer i v n t2 start -> cc_await (ct_chan i p) = false -> Forall (untouched i) ops -> q mod 256 = 4 + i -> in_time t2 (ops ++ [BIn q t]) ->
  dev_ops chip (start ++ ops ++ [BIn q t]) p = Some (p', l) -> exists l1, l = l1 ++ [(BIn q t, AByte (counter_at (negb (Z.testbit v 5)) n (t2 + 1 - wrapped ops) t))].
Proof.
  intros S A U Q O H. apply dev_ops_app in H as (p1 & l1 & l2 & H1 & H & ->). destruct (started _ _ _ _ _ _ _ S A H1) as [T _].
  apply dev_ops_app in H as (p2 & l3 & l4 & H2 & H & ->). apply dev_ops_one in H as (x & H & ->). apply in_time_app in O as [O1 O2]. destruct (timing_ops _ _ _ _ _ _ _ _ _ _ H2 U O1 T) as (L & T2 & _).
  cbn [in_time op_time] in O2. destruct (timing_step _ _ _ _ _ _ _ _ _ _ H (conj eq_refl eq_refl) (proj1 O2 : ordered _ (BIn q t)) T2) as (L' & _ & _ & _ & _ & X). exists (l1 ++ l3). rewrite (X Q), <- app_assoc. reflexivity.
Qed.
Lemma request v n t2 start opsa opsb t p p0 l0 p1 l1 p2 l : starts_timer i v n t2 start -> cc_await (ct_chan i p) = false -> Forall (untouched i) (opsa ++ opsb) -> Forall no_ack opsb -> in_time t2 (opsa ++ opsb ++ [BIrq t]) ->
  dev_ops chip start p = Some (p0, l0) -> dev_ops chip opsa p0 = Some (p1, l1) -> dev_ops chip (opsb ++ [BIrq t]) p1 = Some (p2, l) -> ct_ieo p1 = false -> Z.testbit v 7 = true ->
  let x16 := negb (Z.testbit v 5) in let s := t2 + 1 - wrapped opsa in zeros x16 n s (clock t2 opsa) < zeros x16 n (s - wrapped opsb) t -> ct_hint p0 - wrapped opsa - wrapped opsb <= t ->
  exists l1, l = l1 ++ [(BIrq t, ALine true)].
Proof.
  intros S A U NA O H0 H1 H2 IE V x16 s ZZ HH. destruct (started _ _ _ _ _ _ _ S A H0) as [T IN]. apply in_time_app in O as [O1 O2]. apply Forall_app in U as [U1 U2].
  destruct (timing_ops _ _ _ _ _ _ _ _ _ _ H1 U1 O1 T) as (L & T1 & _ & J1 & _). fold x16 in T1. fold s in T1. apply dev_ops_app in H2 as (p3 & l3 & l4 & H2 & H & ->). apply dev_ops_one in H as (x & H & ->).
  apply in_time_app in O2 as [O2 O3]. destruct (timing_ops _ _ _ _ _ _ _ _ _ _ H2 U2 O2 T1) as (L2 & T2 & Z2 & J2 & K2). destruct (K2 NA) as [K3 K4]. cbn [in_time op_time] in O3.
  destruct (timing_step _ _ _ _ _ _ _ _ _ _ H (conj eq_refl eq_refl) (proj1 O3 : ordered _ (BIrq t)) T2) as (L3 & T3 & Z3 & J3 & K5 & X). destruct (X (K3 IE)) as [X1 X2]. exists l3. rewrite X1; [reflexivity|].
  destruct (K5 Logic.I) as [_ K6]. cbn [taken] in *. rewrite Z.sub_0_r in *. specialize (X2 HH). assert (R := rn_range _ _ _ _ _ (ti_run _ _ _ _ _ _ _ T1)).
  assert (ZL : zeros x16 n s L <= zeros x16 n s (clock t2 opsa)).
  { assert (AN := ti_now _ _ _ _ _ _ _ T1). unfold zeros. apply Z.div_le_mono; [change (0 < period x16 n); assert (P := period_pos x16 n R); lia|lia]. }
  rewrite K6, K4, J2, J1, IN, V. cbn [andb].
  destruct (Z.ltb_spec (zeros x16 n s L) (zeros x16 n (s - wrapped opsb) L2)); [now rewrite orb_true_r|]. replace (_ <? _) with true by lia. now rewrite orb_true_r.
Qed.
Lemma not_early v n t2 start ops p p0 l0 p1 l1 : starts_timer i v n t2 start -> cc_await (ct_chan i p) = false -> Forall (untouched i) ops -> Forall no_ack ops -> in_time t2 ops ->
  dev_ops chip start p = Some (p0, l0) -> dev_ops chip ops p0 = Some (p1, l1) -> zeros (negb (Z.testbit v 5)) n (t2 + 1 - wrapped ops) (clock t2 ops) = 0 -> cc_int (ct_chan i p1) = cc_int (ct_chan i p0).
Proof.
  intros S A U NA O H0 H1 ZZ. destruct (started _ _ _ _ _ _ _ S A H0) as [T IN]. destruct (timing_ops _ _ _ _ _ _ _ _ _ _ H1 U O T) as (L & T1 & Z1 & _ & K). destruct (K NA) as [_ K1]. set (x16 := negb (Z.testbit v 5)) in *.
  assert (R := rn_range _ _ _ _ _ (ti_run _ _ _ _ _ _ _ T1)).
  assert (ZL : zeros x16 n (t2 + 1 - wrapped ops) L <= zeros x16 n (t2 + 1 - wrapped ops) (clock t2 ops)).
  { assert (AN := ti_now _ _ _ _ _ _ _ T1). unfold zeros. apply Z.div_le_mono; [change (0 < period x16 n); assert (P := period_pos x16 n R); lia|lia]. }
  assert (0 <= zeros x16 n (t2 + 1) (t2 + 1)). { unfold zeros. apply Z.div_pos; [lia|]. change (0 < period x16 n). assert (P := period_pos x16 n R). lia. }
  replace (_ <? _) with false in K1 by lia. now rewrite andb_false_r, orb_false_r in K1.
Qed.
End Run.
