(** Proofs about the CTC of the example computer: as long as one of the channels with an external clock is left alone, the chip looks at its
    channels at least once in half a period of that clock. *)
From Coq Require Import ZArith Bool List Lia.
From Verif Require Import Base RalBus RalPio SpecPio RalPioProofs RalCtc SpecCtc RalCtcProofs RalCtcChip RalCtcRun.
Import ListNotations.
Open Scope Z_scope.
Ltac Zify.zify_post_hook ::= idtac.

Section Keeps.
Context {W : Type} (Q : W -> Prop) (t : Z).
Definition keeps (g : trig W) : Prop :=
  (forall r w w' x, Q w -> tg_next g r t w = Some (w', x) -> Q w') /\ (forall w w' x, Q w -> tg_purge g t w = Some (w', x) -> Q w') /\ (forall u w w', Q w -> tg_pulse g u w = Some w' -> Q w').
Context (g : trig W) (K : keeps g).
Lemma down_keeps r u c w c' w' b : Q w -> downcount g r u c w = Some (c', w', b) -> Q w'.
Proof. destruct K as (_ & _ & K3). unfold downcount. cbn zeta. intro Q0. destruct (_ =? 0); [|intros [= _ <- _]; exact Q0]. intro H. step H. injection H as _ <- _. eauto. Qed.
Lemma count_keeps fuel r : forall c w c' w', Q w -> count_loop g fuel r t c w = Some (c', w') -> Q w'.
Proof.
  destruct K as (K1 & _ & _). induction fuel as [|fuel IH]; intros c w c' w' Q0 H; [discriminate|]. cbn [count_loop] in H. step H. destruct p as [w1 [[] u]]; apply K1 in E; try exact Q0.
  - step H. destruct p as [[c1 w2] []]; apply down_keeps in E0; try exact E; [injection H as _ <-; exact E0|]. now apply IH in H.
  - injection H as _ <-. exact E.
Qed.
Lemma timer_keeps fuel full : forall d k u c w c' w' r, Q w -> timer_loop g fuel full d k u c w = Some (c', w', r) -> Q w'.
Proof.
  destruct K as (_ & _ & K3). induction fuel as [|fuel IH]; intros d k u c w c' w' r Q0 H; cbn [timer_loop] in H; (destruct (k <=? d); [|injection H as _ <- _; exact Q0]); [discriminate|].
  step H. step H. apply IH in H; [exact H|eauto].
Qed.
Lemma wait_keeps fuel x : forall c w c' w', Q w -> wait_loop g fuel x t c w = Some (c', w') -> Q w'.
Proof.
  destruct K as (K1 & _ & _). induction fuel as [|fuel IH]; intros c w c' w' Q0 H; [discriminate|]. cbn [wait_loop] in H. step H. destruct p as [w1 [[] u]]; apply K1 in E; try exact Q0.
  - destruct (x <=? u); [|now apply IH in H]. step H. injection H as _ <-. exact E.
  - injection H as _ <-. exact E.
Qed.
Lemma process_keeps c w c' w' : Q w -> process g t c w = Some (c', w') -> Q w'.
Proof.
  assert (K' := K). destruct K' as (_ & K2 & _). intro Q0. unfold process. cbn zeta. destruct (cc_restart c) as [r|].
  - destruct (cc_counter c); [now apply count_keeps|]. destruct (cc_last c) as [s|].
    + intro H. step H. destruct p as [w1 h]. apply K2 in E; [|exact Q0]. destruct (s <? t).
      * step H. step H. destruct p as [[c1 w2] [[d k] u]]. apply timer_keeps in E1; [|exact E]. step H. injection H as _ <-. exact E1.
      * step H. injection H as _ <-. exact E.
    + destruct (cc_ext c) as [x|]; [now apply wait_keeps|]. intro H. step H. destruct p as [w1 h]. injection H as _ <-. eauto.
  - intro H. step H. destruct p as [w1 h]. injection H as _ <-. eauto.
Qed.
Lemma edge_keeps c w c' w' : Q w -> edge_changed g t c w = Some (c', w') -> Q w'.
Proof.
  intros Q0 H. unfold edge_changed in H. destruct (cc_restart c); [|now injection H as _ <-]. destruct (cc_counter c).
  - step H. destruct p as [[c1 w1] b]. apply down_keeps in E; [|exact Q0]. now injection H as _ <-.
  - destruct (cc_last c), (cc_ext c); try (now injection H as _ <-). destruct (_ <=? t); [step H|]; now injection H as _ <-.
Qed.
Lemma write_keeps v c w c' w' b : Q w -> cc_write g v t c w = Some (c', w', b) -> Q w'.
Proof.
  intros Q0 H. unfold cc_write in H. step H. destruct p as [c1 w1]. apply process_keeps in E; [|exact Q0]. cbn zeta in H. destruct (cc_await c1); [step H; now injection H as _ <- _|].
  destruct (Z.testbit v 0); [|now injection H as _ <- _]. step H. step H. step H. destruct p as [c3 w2]. injection H as _ <- _. destruct (Bool.eqb _ _) in E2; [now injection E2 as _ <-|]. now apply edge_keeps in E2.
Qed.
Lemma reset_keeps c w c' w' : Q w -> cc_reset g t c w = Some (c', w') -> Q w'.
Proof. intros Q0 H. unfold cc_reset in H. step H. destruct p as [c1 w1]. injection H as _ <-. now apply process_keeps in E. Qed.
Lemma read_keeps c w c' w' v : Q w -> read_counter g t c w = Some (c', w', v) -> Q w'.
Proof. intros Q0 H. unfold read_counter in H. step H. destruct p as [c1 w1]. injection H as _ <- _. now apply process_keeps in E. Qed.
End Keeps.

Definition lok (half t : Z) (l : line) : Prop := ln_half l = half /\ ln_period l <= t.
Definition lines_ok (half t : Z) (w : line * line) : Prop := lok half t (fst w) /\ lok half t (snd w).
Section Lines.
Context (half t : Z).
Lemma active_keeps cap : keeps (lok half t) t (active cap).
Proof.
  split; [|split]; cbn [active tg_next tg_purge tg_pulse].
  - intros r l l' x [H1 H2] H. unfold active_next in H. step H. destruct (Z.leb_spec z t); [|injection H as <- _; split; assumption].
    destruct (Bool.eqb _ _); [injection H as <- _; split; assumption|]. step H. destruct (Z.leb_spec z0 t); injection H as <- _; split; assumption.
  - intros l l' x [H1 H2] H. unfold active_purge in H. step H. destruct (Z.leb_spec z t); [|injection H as <- _; split; assumption]. apply opt_inv in H as (n & _ & H). injection H as -> _. split; assumption.
  - intros u l l' [H1 H2] H. unfold active_pulse in H. destruct (Nat.leb _ _); [discriminate|]. injection H as <-. split; assumption.
Qed.
Lemma passive_keeps : keeps (lok half t) t passive.
Proof.
  split; [|split]; cbn [passive tg_next tg_purge tg_pulse].
  - intros r l l' x [H1 H2] H. unfold passive_next in H. destruct (ln_pulses l); [injection H as <- _; split; assumption|]. destruct (_ <=? t); [|injection H as <- _; split; assumption].
    destruct r; [injection H as <- _; split; assumption|]. step H. injection H as H. destruct (_ <=? t); injection H as <- _; split; assumption.
  - intros l l' x [H1 H2] H. unfold passive_purge in H. apply opt_inv in H as (n & _ & H). injection H as -> _. split; assumption.
  - intros u l l' Q H. unfold passive_pulse in H. injection H as <-. exact Q.
Qed.
Lemma first_keeps g : keeps (lok half t) t g -> keeps (lines_ok half t) t (on_first g).
Proof.
  intros (K1 & K2 & K3). split; [|split]; cbn [on_first tg_next tg_purge tg_pulse]; [intros r [a b] w' x [Qa Qb] H|intros [a b] w' x [Qa Qb] H|intros u [a b] w' [Qa Qb] H];
    apply opt_inv in H as (y & E & H); cbn [fst snd] in *; [injection H as -> _|injection H as -> _|subst w']; split; try exact Qb; cbn [fst]; [destruct y; eauto|destruct y; eauto|eauto].
Qed.
Lemma second_keeps g : keeps (lok half t) t g -> keeps (lines_ok half t) t (on_second g).
Proof.
  intros (K1 & K2 & K3). split; [|split]; cbn [on_second tg_next tg_purge tg_pulse]; [intros r [a b] w' x [Qa Qb] H|intros [a b] w' x [Qa Qb] H|intros u [a b] w' [Qa Qb] H];
    apply opt_inv in H as (y & E & H); cbn [fst snd] in *; [injection H as -> _|injection H as -> _|subst w']; split; try exact Qa; cbn [snd]; [destruct y; eauto|destruct y; eauto|eauto].
Qed.
Lemma active_hint l l' h : lok half t l -> active_purge t l = Some (l', h) -> h <= t + half.
Proof.
  intros [H1 H2] H. unfold active_purge in H. step H. apply add32_eq in E. destruct (Z.leb_spec z t); [|injection H as _ <-; lia]. apply opt_inv in H as (n & E2 & H). apply add32_eq in E2. injection H as _ ->. lia.
Qed.
End Lines.

Section Soon.
Context {D : Type} (dv : dev D) (half k : Z) (K : k = 0 \/ k = 2).
Notation G0 := (on_first (active MAX_PULSES)). Notation G1 := (on_first passive). Notation G2 := (on_second (active MAX_PULSES)). Notation G3 := (on_second passive).
Notation ctc := (ctc (line * line) D).
Record awake (now : Z) (p : ctc) : Prop := mkAwake { aw_now : 0 <= now; aw_idle : cc_restart (ct_chan k p) = None; aw_chan : cc_hint (ct_chan k p) <= now + half; aw_chip : ct_hint p <= now + half; aw_lines : lines_ok half now (ct_lines p) }.
Lemma all_keep t i : keeps (lines_ok half t) t (trg G0 G1 G2 G3 i).
Proof.
  unfold trg. destruct (i =? 0); [apply first_keeps, active_keeps|]. destruct (i =? 1); [apply first_keeps, passive_keeps|]. destruct (i =? 2); [apply second_keeps, active_keeps|]. apply second_keeps, passive_keeps.
Qed.
Lemma clocked_hint t w w' h : lines_ok half t w -> tg_purge (trg G0 G1 G2 G3 k) t w = Some (w', h) -> h <= t + half.
Proof. intros [Qa Qb] H. destruct K as [-> | ->]; cbn in H; apply opt_inv in H as ([l x] & E & H); injection H as _ ->; [apply (active_hint half t _ _ _ Qa E)|apply (active_hint half t _ _ _ Qb E)]. Qed.
Lemma lines_later t t' w : t <= t' -> lines_ok half t w -> lines_ok half t' w.
Proof. intros H [[A1 A2] [B1 B2]]. repeat split; try assumption; lia. Qed.
Lemma idle_process t c w c' w' : lines_ok half t w -> cc_restart c = None -> process (trg G0 G1 G2 G3 k) t c w = Some (c', w') -> cc_restart c' = None /\ cc_hint c' <= t + half.
Proof. intros Q R H. unfold process in H. rewrite R in H. cbn zeta in H. step H. destruct p as [w1 h]. injection H as <- _. split; [exact R|]. exact (clocked_hint _ _ _ _ Q E). Qed.
Lemma sub_process t i (b : bool) c w c' w' : lines_ok half t w -> (if b then process (trg G0 G1 G2 G3 i) t c w else Some (c, w)) = Some (c', w') ->
  lines_ok half t w' /\ (i = k -> cc_restart c = None -> cc_hint c <= t + half -> cc_restart c' = None /\ cc_hint c' <= t + half).
Proof.
  intros Q H. destruct b; [|injection H as <- <-; auto]. split; [exact (process_keeps _ _ _ (all_keep t i) _ _ _ _ Q H)|]. intros -> R _. exact (idle_process _ _ _ _ _ Q R H).
Qed.
Lemma awake_scan now t p p' : now <= t -> awake now p -> process_channels G0 G1 G2 G3 t p = Some p' -> awake t p'.
Proof.
  intros O [A1 A2 A3 A4 A5] H. apply (lines_later now t _ O) in A5. unfold process_channels in H. destruct (Z.leb_spec (ct_hint p) t); [|injection H as <-; split; try assumption; lia].
  step H. destruct p0 as [c0 w0]. step H. destruct p0 as [c1 w1]. step H. destruct p0 as [c2 w2]. step H. destruct p0 as [c3 w3]. injection H as <-.
  apply (sub_process t 0) in E as [Q0 P0]; [|exact A5]. apply (sub_process t 1) in E0 as [Q1 P1]; [|exact Q0]. apply (sub_process t 2) in E1 as [Q2 P2]; [|exact Q1]. apply (sub_process t 3) in E2 as [Q3 P3]; [|exact Q2].
  split; cbn [ct_hint ct_lines]; try assumption; try lia; destruct K as [-> | ->]; unfold ct_chan in *; cbn [Z.eqb Pos.eqb ct_0 ct_2] in *; first [destruct (P0 eq_refl A2 ltac:(lia)) as [R HR]|destruct (P2 eq_refl A2 ltac:(lia)) as [R HR]]; try assumption; lia.
Qed.
Lemma next_awake now p p' : awake now p -> ct_chan k p' = ct_chan k p -> ct_hint p' = ct_hint p -> ct_lines p' = ct_lines p -> awake now p'.
Proof. intros [A1 A2 A3 A4 A5] E1 E2 E3. split; rewrite ?E1, ?E2, ?E3; assumption. Qed.
Lemma awake_later now t p : now <= t -> awake now p -> awake t p.
Proof. intros O [A1 A2 A3 A4 A5]. split; try assumption; try lia. now apply (lines_later now). Qed.
Lemma behind_awake now (p : ctc) f p' : awake now p -> behind p f = Some p' -> awake now p'.
Proof. intros A H. unfold behind in H. step H. injection H as <-. apply (next_awake _ _ _ A); reflexivity. Qed.
Lemma behind'_awake {R} now (p : ctc) f p' (r : R) : awake now p -> behind' p f = Some (p', r) -> awake now p'.
Proof. intros A H. unfold behind' in H. step H. destruct p0. injection H as <- _. apply (next_awake _ _ _ A); reflexivity. Qed.
Lemma one_of_lines {R} t q (p : ctc) (f : trig (line * line) -> cchan -> line * line -> option (cchan * (line * line) * R)) p' r :
  (forall i c w c' w' r, lines_ok half t w -> f (trg G0 G1 G2 G3 i) c w = Some (c', w', r) -> lines_ok half t w') -> lines_ok half t (ct_lines p) ->
  one_of G0 G1 G2 G3 CTC_CS1 CTC_CS0 q p f = Some (p', r) -> lines_ok half t (ct_lines p').
Proof.
  intros F Q H. unfold one_of in H. destruct (_ =? 0), (_ =? 0) in H; step H; destruct p0 as [[c w] r']; injection H as <- _; cbn [ct_lines]; [apply (F 0 _ _ _ _ _ Q E)|apply (F 1 _ _ _ _ _ Q E)|apply (F 2 _ _ _ _ _ Q E)|apply (F 3 _ _ _ _ _ Q E)].
Qed.
(** Reading the idle channel itself. *)
Lemma one_of_idle t q (p : ctc) p' r : q mod 256 = 4 + k -> lines_ok half t (ct_lines p) -> cc_restart (ct_chan k p) = None ->
  one_of G0 G1 G2 G3 CTC_CS1 CTC_CS0 q p (fun g => read_counter g t) = Some (p', r) -> cc_restart (ct_chan k p') = None /\ cc_hint (ct_chan k p') <= t + half.
Proof.
  intros Q L R H. unfold one_of in H. destruct (ctc_ports q) as (_ & P1 & P2). rewrite P1, P2, Q in H.
  destruct K as [-> | ->]; cbn in H; step H; destruct p0 as [[c w] r']; injection H as <- _; unfold read_counter in E; step E; destruct p0 as [c1 w1]; injection E as <- _ _; unfold ct_chan in *; cbn [Z.eqb Pos.eqb ct_0 ct_2] in *.
  - unfold process in E0. rewrite R in E0. cbn zeta in E0. step E0. destruct p0 as [w2 h]. injection E0 as <- _. split; [exact R|]. cbn in E. apply opt_inv in E as ([l x] & E & X). injection X as _ ->. exact (active_hint half t _ _ _ (proj1 L) E).
  - unfold process in E0. rewrite R in E0. cbn zeta in E0. step E0. destruct p0 as [w2 h]. injection E0 as <- _. split; [exact R|]. cbn in E. apply opt_inv in E as ([l x] & E & X). injection X as _ ->. exact (active_hint half t _ _ _ (proj2 L) E).
Qed.
Lemma second_lines i n c w c' w' : cc_second (trg G0 G1 G2 G3 i) n c w = Some (c', w') -> tg_second (trg G0 G1 G2 G3 i) n w = Some w'.
Proof. intro H. unfold cc_second in H. step H. step H. injection H as _ <-. reflexivity. Qed.
Lemma awake_step now o p p' x : 0 <= half -> dev_do (ral_ctc dv) o p = Some (p', x) -> word_to (4 + k) o = None -> ordered now o -> (forall n, o = BSecond n -> n <= now) -> awake now p -> awake (later now o) p'.
Proof.
  intros HP H U O SN A. assert (I : chan_no k) by (destruct K as [-> | ->]; unfold chan_no; auto). assert (GO := do_goes G0 G1 G2 G3 dv k o p p' x I H).
  destruct o as [t|t|t|n|q t|q v t|t|pc t|pc t]; cbn [dev_do ral_ctc ctc_dev dv_reset dv_frame_end dv_m1 dv_next_second dv_read_io dv_write_io dv_is_irq dv_irq_data dv_reti later ordered op_time goes] in *; apply opt_inv in H as (a & E & X); injection X as -> ->.
  - unfold ctc_reset in E. step E. destruct GO as (G1' & G2' & w & w' & G3'). destruct A as [A1 A2 A3 A4 A5]. apply (lines_later now t _ O) in A5.
    assert (LN : lines_ok half t (ct_lines c)).
    { unfold all_four in E0. step E0. destruct p0 as [c0 w0]. step E0. destruct p0 as [c1 w1]. step E0. destruct p0 as [c2 w2]. step E0. destruct p0 as [c3 w3]. injection E0 as <-. cbn [ct_lines].
      apply (reset_keeps _ _ _ (all_keep t 0)) in E1; [|exact A5]. apply (reset_keeps _ _ _ (all_keep t 1)) in E2; [|exact E1]. apply (reset_keeps _ _ _ (all_keep t 2)) in E3; [|exact E2]. now apply (reset_keeps _ _ _ (all_keep t 3)) in E4. }
    unfold behind in E. step E. injection E as <-. unfold cc_reset in G3'. step G3'. destruct p0 as [c1 w1]. injection G3' as G3' _. split; cbn [ct_lines]; try lia; try exact LN; try (rewrite <- G3'; cbn; lia || reflexivity).
  - unfold ctc_frame_end in E. step E. apply (awake_scan now t _ _ O A) in E0. exact (behind_awake _ _ _ _ E0 E).
  - unfold ctc_m1 in E. step E. apply (awake_scan now t _ _ O A) in E0. exact (behind_awake _ _ _ _ E0 E).
  - specialize (SN n eq_refl). destruct A as [A1 A2 A3 A4 A5]. destruct GO as (G1' & G2' & w & w' & G3'). unfold ctc_second in E. step E.
    assert (LN : lines_ok half (now - n) (ct_lines c)).
    { unfold all_four in E0. step E0. destruct p0 as [c0 w0]. step E0. destruct p0 as [c1 w1]. step E0. destruct p0 as [c2 w2]. step E0. destruct p0 as [c3 w3]. injection E0 as <-. cbn [ct_lines].
      apply (second_lines 0) in E1. apply (second_lines 1) in E2. apply (second_lines 2) in E3. apply (second_lines 3) in E4. destruct (ct_lines p) as [la lb]. cbn in E1, E2, E3, E4. injection E1 as <-. injection E2 as <-. injection E3 as <-. injection E4 as <-.
      destruct A5 as [[B1 B2] [B3 B4]]. cbn [fst snd] in *. repeat split; cbn; try assumption; lia. }
    unfold behind in E. step E. injection E as <-. unfold cc_second in G3'. step G3'. step G3'. injection G3' as G3' _. unfold ct_chan in *. cbn [ct_0 ct_1 ct_2 ct_3] in *.
    assert (X : cc_restart c0 = None /\ cc_hint c0 = cc_hint (if k =? 0 then ct_0 p else if k =? 1 then ct_1 p else if k =? 2 then ct_2 p else ct_3 p)).
    { destruct (cc_last _) in E; [destruct (_ <=? _) in E; [|discriminate]|]; injection E as <-; cbn; auto. }
    destruct X as [X1 X2]. split; unfold ct_chan; cbn [ct_lines ct_0 ct_1 ct_2 ct_3 ct_hint] in *; rewrite <- ?G3', ?G1'; try exact LN; try lia; unfold shrink.
    + destruct (cc_ext c0); exact X1.
    + destruct (cc_ext c0); cbn [set_ext set_hint cc_hint]; rewrite X2; destruct (Z.leb_spec n (cc_hint (if k =? 0 then ct_0 p else if k =? 1 then ct_1 p else if k =? 2 then ct_2 p else ct_3 p))); lia.
    + destruct (Z.leb_spec n (ct_hint p)); lia.
  - destruct a as [p1 [v e]]. cbn [fst snd] in *. unfold ctc_read_io in E. destruct (ctc_ports q) as (P0 & _ & _). rewrite P0 in E. destruct (Z.eqb_spec (q mod 256 / 4) 1) as [Q|Q]; [|exact (behind'_awake t _ _ _ _ (awake_later _ _ _ O A) E)].
    step E. destruct p0 as [p2 v2]. injection E as -> _ _. assert (A5 := lines_later now t _ O (aw_lines _ _ A)).
    assert (LN : lines_ok half t (ct_lines p1)) by (apply (one_of_lines t q p _ _ _) with (3 := E0); [|exact A5]; intros; eapply read_keeps; [apply (all_keep t i)|eassumption|eassumption]).
    destruct GO as [_ GO]. destruct (Z.eqb_spec (q mod 256) (4 + k)) as [QK|QK].
    + destruct (one_of_idle t q p p1 v2 QK A5 (aw_idle _ _ A) E0) as [R1 R2]. destruct GO as [GH _]. destruct A as [A1 A2 A3 A4 _]. split; try assumption; lia.
    + destruct GO as [G1' G2']. destruct A as [A1 A2 A3 A4 _]. split; rewrite ?G1', ?G2'; try assumption; lia.
  - destruct a as [p1 [v1 e]]. cbn [fst snd word_to] in *. unfold ctc_write_io in E. destruct (ctc_ports q) as (P0 & _ & _). rewrite P0 in E. destruct (Z.eqb_spec (q mod 256 / 4) 1) as [Q|Q]; [|exact (behind'_awake t _ _ _ _ (awake_later _ _ _ O A) E)].
    step E. destruct p0 as [p2 b]. injection E as EP _ _. assert (A5 := lines_later now t _ O (aw_lines _ _ A)).
    assert (LN : lines_ok half t (ct_lines p2)) by (apply (one_of_lines t q p _ _ _) with (3 := E0); [|exact A5]; intros; eapply write_keeps; [apply (all_keep t i)|eassumption|eassumption]).
    assert (LN1 : lines_ok half t (ct_lines p1)) by (destruct b; subst p1; exact LN).
    destruct GO as [_ GO]. destruct (Z.eqb_spec (q mod 256) (4 + k)) as [QK|QK]; [discriminate|]. destruct GO as [G1' G2']. destruct A as [A1 A2 A3 A4 _]. split; rewrite ?G1', ?G2'; try assumption; lia.
  - destruct a as [p1 b]. cbn [fst snd] in *. unfold ctc_is_irq in E. destruct (ct_ieo p); [injection E as <- _; exact (awake_later _ _ _ O A)|]. step E. apply (awake_scan now t _ _ O A) in E0. destruct (_ || _) in E; [injection E as <- _; exact E0|exact (behind'_awake t _ _ _ _ E0 E)].
  - destruct a as [p1 [v e]]. cbn [fst snd] in *. apply (awake_later now t _ O) in A. unfold ctc_irq_data in E.
    assert (LN : ct_lines p1 = ct_lines p).
    { destruct (cc_int (ct_0 p)); [injection E as <- _ _; reflexivity|]. destruct (cc_int (ct_1 p)); [injection E as <- _ _; reflexivity|]. destruct (cc_int (ct_2 p)); [injection E as <- _ _; reflexivity|]. destruct (cc_int (ct_3 p)); [injection E as <- _ _; reflexivity|].
      unfold behind' in E. step E. destruct p0. injection E as <- _. reflexivity. }
    destruct GO as [GH GC]. destruct A as [A1 A2 A3 A4 A5]. destruct GC as [GC|GC]; split; rewrite ?GH, ?GC, ?LN; assumption.
  - destruct a as [p1 u]. cbn [fst snd] in *. apply (awake_later now t _ O) in A. unfold ctc_reti in E. destruct (ct_ieo p); [injection E as <- _; apply (next_awake _ _ _ A); reflexivity|exact (behind'_awake t _ _ _ _ A E)].
Qed.
Lemma awake_ops ops : 0 <= half -> forall now p p' l, dev_ops (ral_ctc dv) ops p = Some (p', l) -> Forall (fun o => word_to (4 + k) o = None) ops -> in_time now ops -> awake now p -> awake (clock now ops) p'.
Proof.
  intro HP. induction ops as [|o ops IH]; intros now p p' l H F O A; cbn [dev_ops] in H; [injection H as <- _; exact A|]. destruct (dev_do (ral_ctc dv) o p) as [[p1 x]|] eqn:E; [|discriminate].
  apply opt_inv in H as ([p2 l'] & H & Q). injection Q as -> _. inversion_clear F as [|? ? F1 F2]. rewrite clock_cons. assert (OO := in_time_cons _ _ _ O). destruct OO as [O1 O2]. apply (IH _ _ _ _ H F2 O2).
  apply (awake_step now o p p1 x HP E F1 O1); [|exact A]. intros n ->. cbn [in_time] in O. lia.
Qed.
Lemma awake_new ext d p : half = ext / 2 -> 0 <= half -> ral_ctc_new ext d = Some p -> awake 0 p.
Proof.
  intros -> HP H. unfold ral_ctc_new in H. step H. injection H as <-. unfold line_new in E. destruct (_ =? 0) in E; [|discriminate]. injection E as <-.
  split; try lia; try (destruct K as [-> | ->]; cbn; reflexivity || lia); cbn; try lia; repeat split; cbn; lia.
Qed.
End Soon.

Lemma clock_app a b now : clock now (a ++ b) = clock (clock now a) b.
Proof. revert now. induction a as [|o a IH]; intro now; [reflexivity|]. destruct o; cbn [app clock]; apply IH. Qed.
Lemma request_soon {D} (dv : dev D) ext d k p00 before i v n t2 start opsa opsb t p lb p0 l0 p1 l1 p2 l : chan_no i -> k = 0 \/ k = 2 -> 0 <= ext -> ral_ctc_new ext d = Some p00 -> dev_ops (ral_ctc dv) before p00 = Some (p, lb) ->
  starts_timer i v n t2 start -> cc_await (ct_chan i p) = false -> in_time 0 (before ++ start) -> Forall (fun o => word_to (4 + k) o = None) (before ++ start) ->
  Forall (untouched i) (opsa ++ opsb) -> Forall no_ack opsb -> in_time t2 (opsa ++ opsb ++ [BIrq t]) ->
  dev_ops (ral_ctc dv) start p = Some (p0, l0) -> dev_ops (ral_ctc dv) opsa p0 = Some (p1, l1) -> dev_ops (ral_ctc dv) (opsb ++ [BIrq t]) p1 = Some (p2, l) -> ct_ieo p1 = false -> Z.testbit v 7 = true ->
  let x16 := negb (Z.testbit v 5) in let s := t2 + 1 - wrapped opsa in zeros x16 n s (clock t2 opsa) < zeros x16 n (s - wrapped opsb) t -> t2 + ext / 2 - wrapped opsa - wrapped opsb <= t ->
  exists l1, l = l1 ++ [(BIrq t, ALine true)].
Proof.
  intros I K X N HB S A O0 U0 U NA O H0 H1 H2 IE V x16 s ZZ HH. assert (HP : 0 <= ext / 2) by (apply Z.div_pos; lia).
  assert (AW := awake_new (ext / 2) k K ext d p00 eq_refl HP N). apply in_time_app in O0 as [O1 O2]. apply Forall_app in U0 as [U1 U2].
  assert (AB := awake_ops dv (ext / 2) k K before HP 0 p00 p lb HB U1 O1 AW). assert (AS := awake_ops dv (ext / 2) k K start HP _ p p0 l0 H0 U2 O2 AB).
  assert (CL : clock (clock 0 before) start = t2). { destruct S as (q1 & t1 & mid & q2 & -> & _). change (BOut q1 v t1 :: mid ++ [BOut q2 n t2]) with ([BOut q1 v t1] ++ mid ++ [BOut q2 n t2]). rewrite !clock_app. reflexivity. }
  rewrite CL in AS. apply (request _ _ _ _ dv i I v n t2 start opsa opsb t p p0 l0 p1 l1 p2 l S A U NA O H0 H1 H2 IE V ZZ). assert (AC := aw_chip _ _ _ _ AS). lia.
Qed.

(** The pulses. *)
Section Tape.
Context {W : Type} (g : trig W).
Lemma tape_pulses ts : forall w w', pulse_all (taped_trig g) ts w = Some w' -> snd w' = snd w ++ ts.
Proof.
  induction ts as [|u ts IH]; intros w w' H; cbn [pulse_all taped_trig tg_pulse] in H; [injection H as <-; now rewrite app_nil_r|].
  destruct (tg_pulse g u (fst w)); cbn [option_map] in H; [|discriminate]. apply IH in H. rewrite H. cbn [snd]. now rewrite <- app_assoc.
Qed.
Lemma times_more x16 r s a b : 0 <= zeros x16 r s a <= zeros x16 r s b ->
  zero_times x16 r s a ++ map (fun j => zero_time x16 r s (zeros x16 r s a + 1 + Z.of_nat j)) (seq 0 (Z.to_nat (zeros x16 r s b - zeros x16 r s a))) = zero_times x16 r s b.
Proof.
  intro H. unfold zero_times. set (za := zeros x16 r s a) in *. set (zb := zeros x16 r s b) in *. clearbody za zb.
  replace (Z.to_nat zb) with (Z.to_nat za + Z.to_nat (zb - za))%nat by lia. rewrite seq_app, map_app. f_equal.
  assert (G : forall m st, map (fun j => zero_time x16 r s (za + 1 + Z.of_nat j)) (seq st m) = map (fun j => zero_time x16 r s (Z.of_nat j)) (seq (1 + Z.to_nat za + st) m)).
  { induction m as [|m IH]; intro st; [reflexivity|]. cbn [seq map]. f_equal; [f_equal; lia|]. rewrite IH. do 2 f_equal. lia. }
  rewrite G. do 2 f_equal. lia.
Qed.
Lemma tape_processes x16 r s ts : forall L c w c' w', running x16 r s L c -> processes (taped_trig g) ts c w = Some (c', w') ->
  running x16 r s (fold_left Z.max ts L) c' /\ exists more, snd w' = snd w ++ more /\ zero_times x16 r s L ++ more = zero_times x16 r s (fold_left Z.max ts L).
Proof.
  induction ts as [|t ts IH]; intros L c w c' w' RN H; cbn [processes] in H; [injection H as <- <-; split; [exact RN|]; exists []; now rewrite !app_nil_r|].
  destruct (process (taped_trig g) t c w) as [[c1 w1]|] eqn:E; [|discriminate]. assert (R := rn_range _ _ _ _ _ RN). destruct (process_running _ _ _ _ _ _ _ _ _ _ RN E) as (wp & h & EP & Q).
  assert (PT : snd wp = snd w). { cbn [taped_trig tg_purge] in EP. apply opt_inv in EP as (y & _ & EP). injection EP as -> _. reflexivity. }
  cbn [fold_left]. assert (P := period_pos x16 r R). assert (ZP : forall u, 0 <= zeros x16 r s u) by (intro u; unfold zeros; apply Z.div_pos; [lia|change (0 < period x16 r); lia]).
  destruct (Z.ltb_spec L t) as [LT|LT].
  - destruct Q as (R1 & _ & _ & _ & _ & PU & _). apply tape_pulses in PU. rewrite Z.max_r by lia. destruct (IH _ _ _ _ _ R1 H) as (R2 & more & M1 & M2). split; [exact R2|].
    eexists. rewrite M1, PU, PT, <- app_assoc. split; [reflexivity|]. rewrite app_assoc, times_more; [exact M2|]. split; [apply ZP|]. apply zeros_mono; [exact R|lia].
  - destruct Q as [-> ->]. rewrite Z.max_l by lia. destruct (IH _ _ _ _ _ (running_hint _ _ _ _ (L + 1) _ RN) H) as (R2 & more & M1 & M2). split; [exact R2|]. exists more. rewrite M1, PT. auto.
Qed.
Lemma pulses v n t1 t2 ts c w c1 w1 c2 w2 c3 w3 b1 b2 : timer_word v -> 0 <= n < 256 -> cc_await c = false ->
  cc_write (taped_trig g) v t1 c w = Some (c1, w1, b1) -> cc_write (taped_trig g) n t2 c1 w1 = Some (c2, w2, b2) -> processes (taped_trig g) ts c2 w2 = Some (c3, w3) ->
  snd w3 = snd w2 ++ zero_times (negb (Z.testbit v 5)) n (t2 + 1) (fold_left Z.max ts (t2 + 1)).
Proof.
  intros V N A H1 H2 H3. assert (A1 := write_arms _ _ _ _ _ _ _ _ V A H1). destruct (constant _ _ _ _ _ _ _ _ _ _ N A1 H2) as (RN & _).
  destruct (tape_processes _ _ _ _ _ _ _ _ _ RN H3) as (_ & more & M1 & M2). rewrite M1. f_equal. rewrite <- M2. unfold zero_times at 1. rewrite zeros_eq, Z.sub_diag, Zdiv_0_l by lia. reflexivity.
Qed.
End Tape.
