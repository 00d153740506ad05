(** Proofs about the trigger lines and the counters of the CTC of the example computer. *)
From Coq Require Import ZArith Bool List Lia.
From Verif Require Import Base RalBus RalCtc SpecCtc RalCtcProofs RalCtcRun SpecLine.
Import ListNotations.
Open Scope Z_scope.
Ltac Zify.zify_post_hook ::= idtac.

(** Order. *)
Section Order.
Context (cap : nat) (P : Z -> Z -> Prop) (R : Z -> bool * Z -> Prop) (HP : forall x, P x x) (HR : forall x y r, P x y -> R x (r, due r y))
  (ok : lop -> Prop) (HS : forall d, ok (LSecond d) -> forall x y z, P x y -> y <= z -> P x z).
Notation stored base := (Forall2 (fun x n => P x (base + n))).
Lemma purge_suffix t : forall q q' h, purge_pulses t q = Some (q', h) -> exists q0, q = q0 ++ q'.
Proof.
  induction q as [|n q IH]; cbn [purge_pulses]; intros q' h H; [injection H as <- <-; now exists []|].
  destruct (t <? n); [injection H as <- <-; now exists []|]. step H. destruct (t <? z); [injection H as <- <-; now exists []|].
  destruct (IH q' h H) as [q0 ->]. now exists (n :: q0).
Qed.
Lemma in_order_app s1 s h : in_order R s h -> in_order R (s1 ++ s) h.
Proof. intros H. induction s1; [exact H|]. now constructor. Qed.
(** Each operation: what happens to the pulses stored. *)
Lemma do_order o l l' x : line_do cap o l = Some (l', x) ->
  match o with
  | LSend t => x = None /\ ln_pulses l' = ln_pulses l ++ [t]
  | LHear r t => match x with
      | Some u => exists n, ln_pulses l = n :: ln_pulses l' /\ u = due r n
      | None => ln_pulses l' = ln_pulses l /\ match ln_pulses l with [] => True | n :: _ => t < due r n end end
  | LDrop t => x = None /\ exists q0, ln_pulses l = q0 ++ ln_pulses l'
  | LSecond d => x = None /\ ln_pulses l' = map (fun n => Z.max 0 (n - d)) (ln_pulses l)
  | LEdge r t => ln_pulses l' = ln_pulses l
  end.
Proof.
  intros H. destruct o as [t|r t|t|d|r t]; cbn [line_do active passive tg_next tg_purge tg_pulse tg_second] in H.
  - unfold active_pulse in H. destruct (Nat.leb cap _); [discriminate|]. injection H as <- <-. split; reflexivity.
  - unfold passive_next in H. destruct (ln_pulses l) as [|n q] eqn:E; [injection H as <- <-; now rewrite E|].
    destruct (n <=? t) eqn:Et; [|injection H as <- <-; rewrite E; split; [reflexivity|]; unfold due; destruct r; lia].
    destruct r; [injection H as <- <-; exists n; split; reflexivity|].
    unfold heard_edge in H. destruct (add32 n 2) as [n2|] eqn:E2; [|discriminate]. apply add32_eq in E2. destruct (n2 <=? t) eqn:E3; injection H as <- <-.
    + exists n. split; [reflexivity|]. unfold due. lia.
    + rewrite E. split; [reflexivity|]. unfold due. lia.
  - unfold passive_purge in H. destruct (purge_pulses t (ln_pulses l)) as [[q h]|] eqn:E; [|discriminate]. injection H as <- <-. split; [reflexivity|].
    exact (purge_suffix _ _ _ _ E).
  - injection H as <- <-. split; reflexivity.
  - unfold active_next in H. destruct (add32 (ln_period l) (ln_half l)) as [n|]; [|discriminate].
    destruct (n <=? t); [|injection H as <- <-; reflexivity]. destruct (eqb _ r); [injection H as <- <-; reflexivity|].
    destruct (add32 n (ln_half l)) as [n2|]; [|discriminate]. destruct (n2 <=? t); injection H as <- <-; reflexivity.
Qed.
Lemma stored_second base d pend q : ok (LSecond d) -> stored base pend q -> stored (base + d) pend (map (fun n => Z.max 0 (n - d)) q).
Proof. intros O H. induction H as [|x n pend q Px _ IH]; constructor; [|exact IH]. refine (HS d O _ _ _ Px _). lia. Qed.
Lemma order_gen : forall ops base l l' log pend, Forall ok ops -> stored base pend (ln_pulses l) -> line_ops cap ops l = Some (l', log) ->
  in_order R (pend ++ sent base log) (heard base log).
Proof.
  induction ops as [|o ops IH]; intros base l l' log pend O Q H; cbn [line_ops] in H; [injection H as <- <-; constructor|].
  destruct (line_do cap o l) as [[l1 x]|] eqn:E; [|discriminate]. destruct (line_ops cap ops l1) as [[l2 lg]|] eqn:E2; [|discriminate]. injection H as <- <-.
  inversion O as [|? ? Oo Oops]; subst. cbn [snd]. apply do_order in E. destruct o as [t|r t|t|d|r t]; cbn [sent heard].
  - destruct E as [-> E]. rewrite (app_assoc pend [base + t] (sent base lg) : pend ++ base + t :: sent base lg = _).
    apply (IH base l1 l2 lg (pend ++ [base + t]) Oops); [|exact E2]. rewrite E. apply Forall2_app; [exact Q|]. constructor; [apply HP|constructor].
  - destruct x as [u|].
    + destruct E as (n & E & ->). rewrite E in Q. inversion Q as [|y n' pend' q' Py Q']; subst. cbn [app]. constructor; [|exact (IH base l1 l2 lg pend' Oops Q' E2)].
      replace (base + due r n) with (due r (base + n)) by (unfold due; destruct r; lia). apply HR, Py.
    + destruct E as [E _]. rewrite <- E in Q. exact (IH base l1 l2 lg pend Oops Q E2).
  - destruct E as (-> & q0 & E). rewrite E in Q. apply Forall2_app_inv_r in Q as (p1 & p2 & _ & Q & ->). rewrite <- app_assoc. apply in_order_app.
    exact (IH base l1 l2 lg p2 Oops Q E2).
  - destruct E as (-> & E). apply (IH (base + d) l1 l2 lg pend Oops); [|exact E2]. rewrite E. apply stored_second; assumption.
  - rewrite <- E in Q. destruct x; exact (IH base l1 l2 lg pend Oops Q E2).
Qed.
Fixpoint taken_off (log : list (lop * option Z)) : Z := match log with [] => 0 | (LSecond d, _) :: log => d + taken_off log | _ :: log => taken_off log end.
Lemma lossless_gen : forall ops base l l' log pend, Forall ok ops -> Forall no_drop ops -> stored base pend (ln_pulses l) -> line_ops cap ops l = Some (l', log) ->
  exists s1 s2, pend ++ sent base log = s1 ++ s2 /\ Forall2 R s1 (heard base log) /\ stored (base + taken_off log) s2 (ln_pulses l').
Proof.
  induction ops as [|o ops IH]; intros base l l' log pend O OD Q H; cbn [line_ops] in H.
  { injection H as <- <-. exists [], pend. cbn [sent heard]. rewrite app_nil_r. split; [reflexivity|]. split; [constructor|]. cbn [taken_off]. now rewrite Z.add_0_r. }
  destruct (line_do cap o l) as [[l1 x]|] eqn:E; [|discriminate]. destruct (line_ops cap ops l1) as [[l2 lg]|] eqn:E2; [|discriminate]. injection H as <- <-.
  inversion O as [|? ? Oo Oops]; subst. inversion OD as [|? ? ODo ODops]; subst. cbn [snd fst]. apply do_order in E. destruct o as [t|r t|t|d|r t]; cbn [sent heard].
  - destruct E as [-> E]. rewrite (app_assoc pend [base + t] (sent base lg) : pend ++ base + t :: sent base lg = _).
    apply (IH base l1 l2 lg (pend ++ [base + t]) Oops ODops); [|exact E2]. rewrite E. apply Forall2_app; [exact Q|]. constructor; [apply HP|constructor].
  - destruct x as [u|].
    + destruct E as (n & E & ->). rewrite E in Q. inversion Q as [|y n' pend' q' Py Q']; subst. destruct (IH base l1 l2 lg pend' Oops ODops Q' E2) as (s1 & s2 & A & B & C).
      exists (y :: s1), s2. cbn [app]. rewrite A. split; [reflexivity|]. split; [|exact C]. constructor; [|exact B].
      replace (base + due r n) with (due r (base + n)) by (unfold due; destruct r; lia). apply HR, Py.
    + destruct E as [E _]. rewrite <- E in Q. exact (IH base l1 l2 lg pend Oops ODops Q E2).
  - destruct ODo.
  - destruct E as (-> & E). cbn [taken_off]. rewrite Z.add_assoc. apply (IH (base + d) l1 l2 lg pend Oops ODops); [|exact E2]. rewrite E. apply stored_second; assumption.
  - rewrite <- E in Q. destruct x; exact (IH base l1 l2 lg pend Oops ODops Q E2).
Qed.
End Order.
Lemma order_le cap ops l l' log : ln_pulses l = [] -> line_ops cap ops l = Some (l', log) -> in_order late (sent 0 log) (heard 0 log).
Proof.
  intros E H. refine (order_gen cap Z.le late Z.le_refl _ (fun _ => True) _ ops 0 l l' log [] _ _ H).
  - intros x y r L. unfold late, due. cbn. destruct r; lia.
  - intros d _ x y z. lia.
  - apply Forall_forall. trivial.
  - rewrite E. constructor.
Qed.
Lemma order_eq cap ops l l' log : ln_pulses l = [] -> Forall no_second ops -> line_ops cap ops l = Some (l', log) -> in_order on_time (sent 0 log) (heard 0 log).
Proof.
  intros E N H. refine (order_gen cap eq on_time _ _ no_second _ ops 0 l l' log [] N _ H).
  - reflexivity.
  - intros x y r ->. reflexivity.
  - intros d [].
  - rewrite E. constructor.
Qed.
Lemma taken_off_none cap : forall ops l l' log, Forall no_second ops -> line_ops cap ops l = Some (l', log) -> taken_off log = 0.
Proof.
  induction ops as [|o ops IH]; intros l l' log N H; cbn [line_ops] in H; [injection H as <- <-; reflexivity|].
  destruct (line_do cap o l) as [[l1 x]|]; [|discriminate]. destruct (line_ops cap ops l1) as [[l2 lg]|] eqn:E2; [|discriminate]. injection H as <- <-.
  inversion N; subst. destruct o; cbn [snd taken_off]; try (eapply IH; eassumption). contradiction.
Qed.
Lemma Forall2_len {A B} (Q : A -> B -> Prop) a b : Forall2 Q a b -> length a = length b.
Proof. intros H. induction H; cbn; congruence. Qed.
Lemma room cap ops l l' log : (length (ln_pulses l) <= cap)%nat -> line_ops cap ops l = Some (l', log) -> (length (ln_pulses l') <= cap)%nat.
Proof.
  revert l l' log. induction ops as [|o ops IH]; intros l l' log L H; cbn [line_ops] in H; [injection H as <- <-; exact L|].
  destruct (line_do cap o l) as [[l1 x]|] eqn:E; [|discriminate]. destruct (line_ops cap ops l1) as [[l2 lg]|] eqn:E2; [|discriminate]. injection H as <- <-. cbn [fst].
  apply (IH l1 l2 lg); [|exact E2]. assert (E1 := E). apply do_order in E1. destruct o as [t|r t|t|d|r t].
  - destruct E1 as [_ ->]. cbn [line_do active tg_pulse] in E. unfold active_pulse in E. rewrite app_length. cbn [length]. destruct (Nat.leb_spec cap (length (ln_pulses l))); [discriminate|lia].
  - destruct x as [u|]; [destruct E1 as (n & E1 & _); rewrite E1 in L; cbn [length] in L; lia|]. destruct E1 as [-> _]. exact L.
  - destruct E1 as (_ & q0 & E1). rewrite E1, app_length in L. lia.
  - destruct E1 as [_ ->]. now rewrite map_length.
  - now rewrite E1.
Qed.
Lemma lossless cap ops l l' log : ln_pulses l = [] -> Forall no_drop ops -> line_ops cap ops l = Some (l', log) ->
  exists s1 s2, sent 0 log = s1 ++ s2 /\ Forall2 late s1 (heard 0 log) /\ (length s2 <= cap)%nat /\ forall t, line_do cap (LSend t) l' = None <-> length s2 = cap.
Proof.
  intros E N H. destruct (lossless_gen cap Z.le late Z.le_refl) with (ok := fun _ : lop => True) (ops := ops) (base := 0) (l := l) (l' := l') (log := log) (pend := @nil Z) as (s1 & s2 & A & B & C).
  - intros x y r L. unfold late, due. cbn. destruct r; lia.
  - intros d _ x y z. lia.
  - apply Forall_forall. trivial.
  - exact N.
  - rewrite E. constructor.
  - exact H.
  - apply Forall2_len in C. assert (L : (length (ln_pulses l') <= cap)%nat) by (apply (room cap ops l l' log); [rewrite E; cbn; lia|exact H]).
    exists s1, s2. split; [exact A|]. split; [exact B|]. split; [lia|]. intros t. cbn [line_do active tg_pulse]. unfold active_pulse.
    destruct (Nat.leb_spec cap (length (ln_pulses l'))); cbn [option_map]; (split; [intros X|intros X]); try discriminate X; try reflexivity; lia.
Qed.
Lemma all_heard cap ops l l' log r t l2 : ln_pulses l = [] -> Forall no_second ops -> Forall no_drop ops -> line_ops cap ops l = Some (l', log) -> line_do cap (LHear r t) l' = Some (l2, None) ->
  exists s1 s2, sent 0 log = s1 ++ s2 /\ Forall2 on_time s1 (heard 0 log) /\ match s2 with [] => True | x :: _ => t < due r x end.
Proof.
  intros E N ND H H2. destruct (lossless_gen cap eq on_time) with (ok := no_second) (ops := ops) (base := 0) (l := l) (l' := l') (log := log) (pend := @nil Z) as (s1 & s2 & A & B & C).
  - reflexivity.
  - intros x y s ->. reflexivity.
  - intros d [].
  - exact N.
  - exact ND.
  - rewrite E. constructor.
  - exact H.
  - exists s1, s2. split; [exact A|]. split; [exact B|]. rewrite (taken_off_none _ _ _ _ _ N H) in C. apply do_order in H2 as [_ H2].
    destruct C as [|x n s2 q Px _]; [exact I|]. cbn [Z.add] in Px. now subst.
Qed.

(** Counters. *)
Section Counter.
Context {W : Type} (g : trig W).
Notation gt := (tape_trig g).
Definition counting (n : Z) (ints : bool) (k : Z) (fl : bool) (c : cchan) : Prop :=
  cc_restart c = Some n /\ cc_counter c = true /\ cc_ints c = ints /\ cc_cur c = counted n k /\ cc_int c = fl || (ints && (span n <=? k)).
Ltac Zify.zify_post_hook ::= Z.div_mod_to_equations.
Lemma span_range n : 0 <= n < 256 -> 1 <= span n <= 256 /\ (span n mod 256 = n).
Proof. intros H. unfold span. destruct (n =? 0) eqn:E; lia. Qed.
Lemma counted_next n k : 0 <= n < 256 -> 0 <= k -> let s := span n in
  if (k + 1) mod s =? 0 then u8 (counted n k - 1) = 0 /\ counted n (k + 1) = n /\ (k + 1) / s = k / s + 1 else u8 (counted n k - 1) <> 0 /\ counted n (k + 1) = u8 (counted n k - 1) /\ (k + 1) / s = k / s.
Proof.
  intros N K s. assert (S := span_range n N). fold s in S. unfold counted. fold s.
  assert (A := Z.div_mod k s ltac:(lia)). assert (B := Z.mod_pos_bound k s ltac:(lia)). assert (A' := Z.div_mod (k + 1) s ltac:(lia)). assert (B' := Z.mod_pos_bound (k + 1) s ltac:(lia)).
  assert (C : k mod s + 1 = s /\ (k + 1) mod s = 0 /\ (k + 1) / s = k / s + 1 \/ k mod s + 1 < s /\ (k + 1) mod s = k mod s + 1 /\ (k + 1) / s = k / s).
  { destruct (Z.eq_dec (k mod s + 1) s) as [E|E]; [left|right; split; [lia|]].
    - split; [exact E|]. assert (Q : k + 1 = (k / s + 1) * s) by nia. rewrite Q. rewrite Z.mod_mul, Z.div_mul by lia. auto.
    - rewrite (Z.mod_unique (k + 1) s (k / s) (k mod s + 1)), (Z.div_unique (k + 1) s (k / s) (k mod s + 1)) by lia. auto. }
  clear A A' B'. set (x := k mod s) in *. clearbody x. set (y := (k + 1) mod s) in *. clearbody y. set (d1 := k / s) in *. set (d2 := (k + 1) / s) in *. clearbody d1 d2.
  clearbody s. destruct C as [(C1 & C2 & C3)|(C1 & C2 & C3)]; subst y; rewrite ?C3.
  - cbn [Z.eqb]. unfold u8. lia.
  - destruct (Z.eqb_spec (x + 1) 0) as [E|E]; [lia|]. unfold u8. lia.
Qed.
Ltac Zify.zify_post_hook ::= idtac.
Lemma each_nth_snoc n e p u : 0 <= n < 256 -> each_nth n e p ->
  each_nth n (e ++ [u]) (p ++ if (Z.of_nat (length e) + 1) mod span n =? 0 then [u] else []).
Proof.
  intros N [L F]. assert (S := span_range n N). assert (C := counted_next n (Z.of_nat (length e)) N ltac:(lia)). cbn zeta in C.
  assert (DM := Z.div_mod (Z.of_nat (length e)) (span n) ltac:(lia)). assert (MB := Z.mod_pos_bound (Z.of_nat (length e)) (span n) ltac:(lia)).
  assert (DM' := Z.div_mod (Z.of_nat (length e) + 1) (span n) ltac:(lia)). assert (MB' := Z.mod_pos_bound (Z.of_nat (length e) + 1) (span n) ltac:(lia)).
  rewrite <- L in *. set (s := span n) in *.
  assert (Q : forall j, (j < length p)%nat -> (Z.to_nat ((Z.of_nat j + 1) * s - 1) < length e)%nat) by (intros j J; nia).
  destruct (_ =? 0) eqn:E.
  - apply Z.eqb_eq in E. rewrite E in DM'. destruct C as (_ & _ & C). split.
    + rewrite !app_length. cbn [length]. rewrite !Nat2Z.inj_add. change (Z.of_nat 1) with 1. fold s. rewrite C. lia.
    + intros j J. rewrite app_length in J. cbn [length] in J. destruct (Nat.eq_dec j (length p)) as [->|NE].
      * rewrite app_nth2, Nat.sub_diag by lia. rewrite app_nth2 by nia. replace (Z.to_nat _ - length e)%nat with 0%nat by nia. reflexivity.
      * rewrite (app_nth1 p) by lia. rewrite app_nth1 by (apply Q; lia). apply F. lia.
  - destruct C as (_ & _ & C). rewrite app_nil_r. split.
    + rewrite app_length. cbn [length]. rewrite Nat2Z.inj_add. change (Z.of_nat 1) with 1. fold s. rewrite C. reflexivity.
    + intros j J. rewrite app_nth1 by (apply Q; lia). apply F. lia.
Qed.
Lemma down_counts n ints k fl u c w c' w' z : 0 <= n < 256 -> 0 <= k -> counting n ints k fl c -> downcount gt n u c w = Some (c', w', z) ->
  counting n ints (k + 1) fl c' /\ cc_rise c' = cc_rise c /\ z = ((k + 1) mod span n =? 0) /\ tp_edges w' = tp_edges w /\ tp_pulses w' = tp_pulses w ++ (if (k + 1) mod span n =? 0 then [u] else []) /\
  (z = false -> tp_w w' = tp_w w) /\ (z = true -> tg_pulse g u (tp_w w) = Some (tp_w w')).
Proof.
  intros N K (A1 & A2 & A3 & A4 & A5) H. unfold downcount in H. rewrite A4 in H. assert (C := counted_next n k N K). cbn zeta in C. assert (S := span_range n N).
  assert (DM := Z.div_mod k (span n) ltac:(lia)). assert (MB := Z.mod_pos_bound k (span n) ltac:(lia)).
  assert (DM' := Z.div_mod (k + 1) (span n) ltac:(lia)). assert (MB' := Z.mod_pos_bound (k + 1) (span n) ltac:(lia)).
  destruct ((k + 1) mod span n =? 0) eqn:E.
  - destruct C as (C1 & C2 & C3). rewrite C1 in H. cbn [Z.eqb] in H. step H. injection H as <- <- <-. cbn [tape_trig tg_pulse] in E0. destruct (tg_pulse g u (tp_w w)) as [w2|] eqn:E2; [|discriminate]. injection E0 as <-.
    cbn [tp_edges tp_pulses tp_w]. split; [|split; [unfold cc_set_int; destruct (cc_ints _); reflexivity|]; split; [reflexivity|]; split; [reflexivity|]; split; [reflexivity|]; split; [discriminate|]; reflexivity].
    assert (X : span n <= k + 1).
    { apply Z.eqb_eq in E. rewrite E in DM'. assert (0 < (k + 1) / span n) by (rewrite C3; assert (0 <= k / span n) by (apply Z.div_pos; lia); lia). nia. }
    unfold counting, cc_set_int. cbn [cc_ints set_cur]. rewrite A3. destruct ints; cbn [set_hint set_int set_cur cc_restart cc_counter cc_ints cc_cur cc_int] in *; (split; [exact A1|]; split; [exact A2|]; split; [exact A3|]; split; [congruence|]).
    + apply Z.leb_le in X. rewrite X. cbn. now rewrite orb_true_r.
    + rewrite A5. reflexivity.
  - destruct C as (C1 & C2 & C3). destruct (u8 (counted n k - 1) =? 0) eqn:E1; [apply Z.eqb_eq in E1; contradiction|]. injection H as <- <- <-. rewrite app_nil_r.
    split; [|split; [reflexivity|]; split; [reflexivity|]; split; [reflexivity|]; split; [reflexivity|]; split; [reflexivity|discriminate]].
    unfold counting. cbn [set_cur cc_restart cc_counter cc_ints cc_cur cc_int]. split; [exact A1|]. split; [exact A2|]. split; [exact A3|]. split; [congruence|].
    rewrite A5. f_equal. f_equal. apply Z.eqb_neq in E. assert (k + 1 <> span n) by (intro Q; rewrite Q, Z_mod_same_full in E; contradiction).
    destruct (Z.leb_spec (span n) k), (Z.leb_spec (span n) (k + 1)); try reflexivity; lia.
Qed.
(** What is known of the state of the trigger after some edges. *)
Section Inv.
Context (rise : bool) (J : list Z -> W -> Prop) (late : Z -> list Z -> Prop)
  (JN : forall e w t w' b u, J e w -> tg_next g rise t w = Some (w', (b, u)) -> if b : bool then J (e ++ [u]) w' else J e w' /\ late t e)
  (JP : forall e w u w', J e w -> tg_pulse g u w = Some w' -> J e w').
Definition state (n : Z) (ints fl : bool) (e0 p0 e : list Z) (c : cchan) (w : tape W) : Prop :=
  counting n ints (Z.of_nat (length e)) fl c /\ cc_rise c = rise /\ J e (tp_w w) /\ tp_edges w = e0 ++ e /\ exists p, tp_pulses w = p0 ++ p /\ each_nth n e p.
Definition stopped (n t : Z) (e : list Z) : Prop := late t e \/ Z.of_nat (length e) mod span n = 0.
Lemma loop_counts n ints fl e0 p0 t : 0 <= n < 256 -> forall fuel e c w c' w', state n ints fl e0 p0 e c w -> count_loop gt fuel n t c w = Some (c', w') ->
  exists e', state n ints fl e0 p0 e' c' w' /\ stopped n t e'.
Proof.
  intros N. induction fuel as [|fuel IH]; intros e c w c' w' ST H; [discriminate|]. cbn [count_loop] in H. step H. destruct p as [w1 [b u]].
  destruct ST as (C & R & JJ & E1 & p & E2 & EN). cbn [tape_trig tg_next] in E. rewrite R in E. destruct (tg_next g rise t (tp_w w)) as [[w2 [b2 u2]]|] eqn:E3; [|discriminate].
  injection E as <- <- <-. cbn [fst snd] in H. assert (Q := JN _ _ _ _ _ _ JJ E3). destruct b2.
  - step H. destruct p1 as [[c1 w1] z].
    destruct (down_counts _ _ _ _ _ _ _ _ _ _ N (Nat2Z.is_nonneg _) C E) as (C' & R' & Ez & Ee & Ep & T1 & T2). cbn [tp_edges tp_pulses tp_w] in *.
    assert (LE : Z.of_nat (length (e ++ [u2])) = Z.of_nat (length e) + 1) by (rewrite app_length; cbn [length]; lia).
    assert (ST : state n ints fl e0 p0 (e ++ [u2]) c1 w1).
    { unfold state. rewrite LE. split; [exact C'|]. split; [congruence|]. split; [destruct z; [exact (JP _ _ _ _ Q (T2 eq_refl))|rewrite (T1 eq_refl); exact Q]|].
      split; [rewrite Ee, E1, <- app_assoc; reflexivity|]. eexists. rewrite Ep, E2, <- app_assoc. split; [reflexivity|]. exact (each_nth_snoc n e p u2 N EN). }
    destruct z; [|exact (IH _ _ _ _ _ ST H)]. injection H as <- <-. exists (e ++ [u2]). split; [exact ST|]. right. rewrite LE. symmetry in Ez. now apply Z.eqb_eq.
  - injection H as <- <-. exists e. split; [|left; exact (proj2 Q)]. unfold state. split; [exact C|]. split; [exact R|]. split; [exact (proj1 Q)|]. cbn [tp_edges tp_pulses]. rewrite app_nil_r. split; [exact E1|]. exists p. auto.
Qed.
Lemma process_counts n ints fl e0 p0 t e c w c' w' : 0 <= n < 256 -> state n ints fl e0 p0 e c w -> process gt t c w = Some (c', w') ->
  exists e', state n ints fl e0 p0 e' c' w' /\ stopped n t e'.
Proof.
  intros N ST H. assert (ST' := ST). destruct ST' as ((A1 & A2 & _) & _). unfold process in H. rewrite A1, A2 in H. cbn zeta in H. exact (loop_counts _ _ _ _ _ _ N _ _ _ _ _ _ ST H).
Qed.
Lemma processes_count n ints fl e0 p0 : 0 <= n < 256 -> forall ts t e c w c' w', state n ints fl e0 p0 e c w -> processes gt (ts ++ [t]) c w = Some (c', w') ->
  exists e', state n ints fl e0 p0 e' c' w' /\ stopped n t e'.
Proof.
  intros N. induction ts as [|t0 ts IH]; intros t e c w c' w' ST H; cbn [app processes] in H; step H; destruct p as [c1 w1].
  - injection H as <- <-. exact (process_counts _ _ _ _ _ _ _ _ _ _ _ N ST E).
  - destruct (process_counts _ _ _ _ _ _ _ _ _ _ _ N ST E) as (e1 & ST1 & _). exact (IH _ _ _ _ _ _ ST1 H).
Qed.
End Inv.
(** The two words that start a counter. *)
Record ready (rise ints : bool) (c : cchan) : Prop := mkReady { rd_restart : cc_restart c = None; rd_mode : cc_counter c = true; rd_await : cc_await c = true; rd_ints : cc_ints c = ints; rd_rise : cc_rise c = rise }.
Lemma write_counter v t c w c' w' b : counter_word v -> cc_await c = false -> cc_write gt v t c w = Some (c', w', b) -> ready (Z.testbit v 4) (Z.testbit v 7) c'.
Proof.
  intros (V0 & V1 & V2 & V6) A H. unfold cc_write in H. step H. destruct p as [c1 w1]. apply process_await in E. rewrite A in E. rewrite E, V0, V1, V2, V6 in H.
  cbn zeta in H. set (c2 := if Z.testbit v 7 then _ else _) in H.
  assert (F : cc_restart c2 = None /\ cc_await c2 = true /\ cc_ints c2 = Z.testbit v 7) by (subst c2; destruct (Z.testbit v 7); cbn; auto 10).
  clearbody c2. clear E A. destruct c2 as [f1 f2 f3 f4 f5 f6 f7 f8 f9 f10 f11 f12 f13].
  cbn [cc_x16 cc_counter cc_hint cc_last cc_ext cc_tci cc_restart cc_cur cc_await cc_etrig cc_ints cc_int cc_rise] in F. destruct F as (-> & -> & ->).
  clear V0 V1 V2 V6; destruct f2, f13, (Z.testbit v 4); cbn in H; (injection H as <- _ _; split; reflexivity).
Qed.
Lemma write_constant rise ints n t c w c' w' b : 0 <= n < 256 -> ready rise ints c -> cc_write gt n t c w = Some (c', w', b) -> counting n ints 0 (cc_int c') c' /\ cc_rise c' = rise.
Proof.
  intros N [A1 A2 A3 A4 A5] H. unfold cc_write in H. unfold process in H. rewrite A1 in H. cbn zeta in H. step H. destruct p as [c1 w1]. step E. destruct p as [w2 h]. injection E as <- <-.
  destruct c as [f1 f2 f3 f4 f5 f6 f7 f8 f9 f10 f11 f12 f13]. cbn [cc_x16 cc_counter cc_hint cc_last cc_ext cc_tci cc_restart cc_cur cc_await cc_etrig cc_ints cc_int cc_rise] in *. subst.
  cbn in H. injection H as <- <- <-. split; [|reflexivity]. unfold counting. cbn [cc_restart cc_counter cc_ints cc_cur cc_int]. split; [reflexivity|]. split; [reflexivity|]. split; [reflexivity|].
  assert (S := span_range n N). unfold counted. rewrite Zmod_0_l, Z.sub_0_r. split; [symmetry; apply S|]. destruct (Z.leb_spec (span n) 0); [lia|]. now rewrite andb_false_r, orb_false_r.
Qed.
Lemma started rise (J : list Z -> W -> Prop) v n t1 t2 c w c1 w1 c2 w2 b1 b2 : counter_word v -> 0 <= n < 256 -> cc_await c = false -> Z.testbit v 4 = rise ->
  cc_write gt v t1 c w = Some (c1, w1, b1) -> cc_write gt n t2 c1 w1 = Some (c2, w2, b2) -> J [] (tp_w w2) -> state rise J n (Z.testbit v 7) (cc_int c2) (tp_edges w2) (tp_pulses w2) [] c2 w2.
Proof.
  intros V N A R H1 H2 J0. apply write_counter in H1; [|exact V|exact A]. apply (write_constant _ _ _ _ _ _ _ _ _ N H1) in H2 as [C Q].
  unfold state. split; [exact C|]. split; [congruence|]. split; [exact J0|]. split; [now rewrite app_nil_r|]. exists []. rewrite app_nil_r. split; [reflexivity|].
  split; [|intros j L; cbn in L; lia]. cbn [length]. symmetry. apply Zdiv_0_l.
Qed.
Lemma counters v n t1 t2 ts t c w c1 w1 c2 w2 c3 w3 b1 b2 : counter_word v -> 0 <= n < 256 -> cc_await c = false ->
  cc_write gt v t1 c w = Some (c1, w1, b1) -> cc_write gt n t2 c1 w1 = Some (c2, w2, b2) -> processes gt (ts ++ [t]) c2 w2 = Some (c3, w3) ->
  exists e p, tp_edges w3 = tp_edges w2 ++ e /\ tp_pulses w3 = tp_pulses w2 ++ p /\ cc_cur c3 = counted n (Z.of_nat (length e)) /\ each_nth n e p /\
    cc_int c3 = cc_int c2 || (Z.testbit v 7 && (span n <=? Z.of_nat (length e))).
Proof.
  intros V N A H1 H2 H3. assert (ST := started (Z.testbit v 4) (fun _ _ => True) v n t1 t2 c w c1 w1 c2 w2 b1 b2 V N A eq_refl H1 H2 I).
  apply (processes_count (Z.testbit v 4) (fun _ _ => True) (fun _ _ => True)) with (ts := ts) (t := t) (c' := c3) (w' := w3) in ST; try assumption.
  - destruct ST as (e & (C & _ & _ & E & p & P & EN) & _). exists e, p. destruct C as (_ & _ & _ & C1 & C2). auto 9.
  - intros e ww t0 w' b u _ _. destruct b; [exact I|split; exact I].
  - trivial.
Qed.
End Counter.

(** The clock of a line. *)
Lemma active_step half m rise t l l' b u : clocked half m l -> active_next rise t l = Some (l', (b, u)) -> exists m', clocked half m' l' /\
  if b : bool then u = first_edge rise m * half /\ u <= t /\ first_edge rise m' = first_edge rise m + 2 else first_edge rise m' = first_edge rise m /\ t < first_edge rise m * half.
Proof.
  intros (H0 & M0 & E1 & E2 & E3) H. unfold active_next in H. rewrite E1, E2, E3 in H. step H. apply add32_eq in E. subst z.
  assert (O1 : Z.odd (m + 1) = negb (Z.odd m)) by now rewrite Z.odd_add, xorb_true_r.
  assert (O2 : Z.odd (m + 1 + 1) = Z.odd m) by (rewrite Z.odd_add, O1; destruct (Z.odd m); reflexivity).
  assert (O3 : Z.odd (m + 2) = Z.odd m) by (rewrite Z.odd_add; destruct (Z.odd m); reflexivity).
  assert (O4 : Z.odd (m + 2 + 1) = negb (Z.odd m)) by (rewrite Z.odd_add, O3; destruct (Z.odd m); reflexivity).
  unfold first_edge. rewrite O1. destruct (m * half + half <=? t) eqn:Et.
  - destruct (eqb (negb (Z.odd m)) rise) eqn:Er.
    + injection H as <- <- <-. exists (m + 1). split; [unfold clocked; cbn; rewrite O1; auto with zarith|]. split; [lia|]. split; [lia|]. rewrite O2. destruct (Z.odd m), rise; cbn in Er |- *; try discriminate; lia.
    + step H. apply add32_eq in E. subst z. destruct (m * half + half + half <=? t) eqn:Et2; injection H as <- <- <-.
      * exists (m + 2). split; [unfold clocked; cbn; rewrite O3; split; [lia|]; split; [lia|]; split; [reflexivity|]; split; [lia|reflexivity]|]. split; [lia|]. split; [lia|]. rewrite O4, Er. lia.
      * exists (m + 1). split; [unfold clocked; cbn; rewrite O1; split; [lia|]; split; [lia|]; split; [reflexivity|]; split; [lia|reflexivity]|]. rewrite O2. destruct (Z.odd m), rise; cbn in Er |- *; try discriminate; lia.
  - injection H as <- <- <-. exists m. split; [unfold clocked; auto|]. rewrite O1. destruct (eqb _ rise); nia.
Qed.
Lemma clock_counters cap half m v n t1 t2 ts t c w c1 w1 c2 w2 c3 w3 b1 b2 : counter_word v -> 0 <= n < 256 -> cc_await c = false ->
  cc_write (tape_trig (active cap)) v t1 c w = Some (c1, w1, b1) -> cc_write (tape_trig (active cap)) n t2 c1 w1 = Some (c2, w2, b2) -> clocked half m (tp_w w2) ->
  processes (tape_trig (active cap)) (ts ++ [t]) c2 w2 = Some (c3, w3) ->
  exists k, tp_edges w3 = tp_edges w2 ++ map (fun j => edge_time half (Z.testbit v 4) m (Z.of_nat j)) (seq 0 k) /\ cc_cur c3 = counted n (Z.of_nat k) /\
    (t < edge_time half (Z.testbit v 4) m (Z.of_nat k) \/ Z.of_nat k mod span n = 0).
Proof.
  intros V N A H1 H2 CL H3. set (rise := Z.testbit v 4).
  set (J := fun (e : list Z) (l : line) => exists m', clocked half m' l /\ first_edge rise m' = first_edge rise m + 2 * Z.of_nat (length e) /\ e = map (fun j => edge_time half rise m (Z.of_nat j)) (seq 0 (length e))).
  set (late := fun (t : Z) (e : list Z) => t < edge_time half rise m (Z.of_nat (length e))).
  assert (ST := started (active cap) rise J v n t1 t2 c w c1 w1 c2 w2 b1 b2 V N A eq_refl H1 H2).
  assert (ST' : state rise J n (Z.testbit v 7) (cc_int c2) (tp_edges w2) (tp_pulses w2) [] c2 w2).
  { apply ST. exists m. split; [exact CL|]. cbn. split; [lia|reflexivity]. }
  clear ST. apply (processes_count (active cap) rise J late) with (ts := ts) (t := t) (c' := c3) (w' := w3) in ST'; try assumption.
  - destruct ST' as (e & (C & _ & (m' & _ & _ & E) & Ee & _) & S). exists (length e). rewrite <- E. destruct C as (_ & _ & _ & C & _). split; [exact Ee|]. split; [exact C|exact S].
  - intros e l t0 l' b u (m' & CL' & F & E) H. cbn [active tg_next] in H. apply (active_step half m') in H as (m2 & CL2 & H); [|exact CL'].
    assert (X : first_edge rise m' * half = edge_time half rise m (Z.of_nat (length e))) by (unfold edge_time; rewrite F; reflexivity).
    destruct b.
    + destruct H as (-> & _ & F2). exists m2. split; [exact CL2|]. rewrite app_length. cbn [length]. split; [lia|]. rewrite Nat.add_1_r, seq_S, map_app, <- E. cbn [map Nat.add]. now rewrite X.
    + destruct H as (F2 & L). split; [exists m2; split; [exact CL2|]; split; [lia|exact E]|]. unfold late. now rewrite <- X.
  - intros e l u l' (m' & (K1 & K2 & K3 & K4 & K5) & F) H. cbn [active tg_pulse] in H. unfold active_pulse in H. destruct (Nat.leb _ _); [discriminate|]. injection H as <-. exists m'. split; [unfold clocked; auto|exact F].
Qed.
