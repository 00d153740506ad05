(** The sorting routines of the shuffle test from reset to HALT. *)
From Coq Require Import ZArith Bool List Permutation Sorted Lia.
From Verif Require Import Base Flags Ops Parse Cpu Flavours Prog Trace Internal Instr Exec Range SafeRun Clock ClockProofs
  SpecAlu SpecState SpecIsa SpecCycles SpecLoop SpecProgram IsaLink IsaCycles IsaExec IsaRun Steps Loop Hoare ProgRun Asm Kernel Select Insert Shuffle.
Import ListNotations.
Open Scope Z_scope.

Definition sorted_end {T} (s : sorting) (up : bool) (m0 : mem) (a : arch T) (m : mem) (o : outs) (n : Z) : Prop :=
  aHALT a = true /\ aPC a = 13 /\ aSP a = 1506 /\ Permutation (cells m0 716 256) (cells m 716 256) /\
  (forall i j, 0 <= i <= j -> j <= 255 -> m (el up i) <= m (el up j)) /\
  (forall x, x < 716 \/ 972 <= x < 1500 -> m x = m0 x) /\ o = [] /\ n <= sort_time s.

Section Sort.
Context {T WB RB : Type}.
Variable ch : chip T.
Variables (s : sorting) (up : bool).
Lemma will_sort a f bc de hl sp x (j : junk T) m : loaded m (sort_at s up) -> bytes m ->
  will (WB:=WB) (RB:=RB) ch 712 1506 (sorted_end s up m) (St 0 sp a f bc de hl x j) m [] 0.
Proof.
  intros (Hc & R1 & R2) Hb. change (at_routine + 1) with 973 in R2. change at_routine with 972 in R1.
  assert (ER : word_of (m 973) (m 972) = sort_at s up) by (rewrite R1, R2; unfold word_of; rewrite <- Z.div_mod; lia).
  apply kernel_start; [exact Hc|exact Hb|]. intros m1 j1 t1 C1 B1 T1 S1 S2 E1. rewrite ER.
  destruct s.
  - assert (G := sel_sort ch (sorted_end Selection up m) up m a f bc de (sort_at Selection up) x j1 m1 (RB:=RB) (WB:=WB) [] t1 C1 B1 S1 S2).
    replace (at_ up 255) with (sort_at Selection up) in G by (destruct up; reflexivity). apply G; [intros; apply E1; lia|].
    intros m2 a2 f2 bc2 de2 hl2 j2 t2 [D1 D2 D3 D4 D5 D6] T2. apply kernel_end; [exact D1|]. intros j3.
    repeat (split; [reflexivity|]). split; [exact D5|]. split; [|split; [intros; apply D4; lia|split; [reflexivity|unfold sort_time; lia]]].
    intros i k H1 H2. destruct (Z.eq_dec k 0); [replace i with k by lia; lia|]. apply D6; lia.
  - assert (G := ins_sort ch (sorted_end Insertion up m) up m a f bc de (sort_at Insertion up) x j1 m1 (RB:=RB) (WB:=WB) [] t1 C1 B1 S1 S2).
    replace (ati up 317) with (sort_at Insertion up) in G by (destruct up; reflexivity). apply G; [intros; apply E1; lia|].
    intros m2 a2 f2 bc2 de2 hl2 j2 t2 [D1 D2 D3 D4 D5 D6] T2. apply kernel_end; [exact D1|]. intros j3.
    repeat (split; [reflexivity|]). split; [exact D5|]. split; [|split; [intros; apply D4; lia|split; [reflexivity|unfold sort_time; lia]]].
    intros i k H1 H2. apply D6; lia.
Qed.
End Sort.
Lemma sorted_cells (R : Z -> Z -> Prop) m a : forall n d, 
  (forall i j, 0 <= i -> i < j -> j < Z.of_nat (d + n) -> R (m (a + i)) (m (a + j))) -> 
  StronglySorted R (map (fun i => m (a + Z.of_nat i)) (seq d n)).
Proof.
  induction n as [|n IH]; intros d H; cbn [seq map]; constructor.
  - apply IH. intros i j H1 H2 H3. apply H; lia.
  - apply Forall_forall. intros y Hy. apply in_map_iff in Hy. destruct Hy as (k & <- & Hk). apply in_seq in Hk. apply H; lia.
Qed.
Lemma sorted_el up m : (forall i j, 0 <= i <= j -> j <= 255 -> m (el up i) <= m (el up j)) -> StronglySorted (order up) (cells m 716 256).
Proof.
  intros H. apply sorted_cells. intros i j H1 H2 H3. unfold el, order in *. destruct up.
  - apply H; lia.
  - apply Z.le_ge. specialize (H (255 - j) (255 - i)). replace (971 - (255 - i)) with (716 + i) in H by lia.
    replace (971 - (255 - j)) with (716 + j) in H by lia. apply H; lia.
Qed.
Lemma unwritten {WB RB} rom top (bl : list (bev WB RB)) : in_bounds rom top bl -> forall m m', ram_log m bl m' ->
  forall x, ~ rom <= x < top -> m' x = m x.
Proof.
  induction bl as [|e bl IH]; intros IB m m' M x Hx; [now apply M|].
  inversion IB as [|? ? I1 I2]; subst. destruct e; cbn [ram_log] in M; try contradiction; try (now apply IH); try (apply (IH I2 m m'); tauto).
  rewrite (IH I2 _ _ M x Hx). unfold mupd. destruct (Z.eqb_spec x a); [lia|reflexivity].
Qed.
Section Thm.
Context {Q T TS WB RB : Type}.
Variables (FL : Flavour Q) (ch : chip T) (absq : Q -> T).
Context (OK : models FL ch absq).
Lemma reset_state (c : cpu Q) : exists j, abs absq (reset FL c) = St 0 65535 255 255 0 0 0 (mkRest 65535 0 0 0 0 0) j.
Proof. exists (mkJunk 0 0 0 Mode0 false (absq (flavour_reset FL (flavour c)))). vm_compute. reflexivity. Qed.
Lemma sorted_end_run s up (c' : cpu Q) m0 m m' (bl : list (bev WB RB)) t : sorted_end s up m0 (abs absq c') m (outs_of bl) t ->
  (forall x, m' x = m x) -> ram_log m0 bl m' -> in_bounds 712 1506 bl -> sorted_run s up c' m0 m' bl t.
Proof.
  intros (H1 & H2 & H3 & H4 & H5 & H6 & H7 & H8) E L IB. constructor; try assumption.
  - change at_target with 716. rewrite (cells_ext m m'); [exact H4|]. intros; apply E.
  - change at_target with 716. rewrite (cells_ext m m'); [now apply sorted_el|]. intros; apply E.
  - change at_target with 716. change at_stackend with 1506. intros x N1 N2.
    assert (D : x < 1500 \/ 1506 <= x) by lia. destruct D; [rewrite E; apply H6; lia|].
    apply (unwritten _ _ _ IB _ _ L). lia.
Qed.
Context {BS CK : Type}.
Theorem sorts_to_halt s up dbg (Hs : host TS WB RB BS CK) mo c b k : computer Hs mo -> loaded (mo b) (sort_at s up) ->
  exists fuel c' b' k' l, runl Hs (run_to_halt FL dbg fuel (reset FL c)) b k = Some (Some c', b', k', l) /\
    sorted_run s up c' (mo b) (mo b') (buses l) (tsum (clocks l)).
Proof.
  intros HC HL. destruct (reset_state c) as [j EJ].
  assert (W := will_sort (WB:=WB) (RB:=RB) ch s up 255 255 0 0 0 65535 (mkRest 65535 0 0 0 0 0) j (mo b) HL).
  destruct (will_halt FL ch absq (models_ok _ _ _ OK) Hs mo HC 712 1506 _ dbg _ _ _ _ (W (rh_byte _ _ (co_ram _ _ HC) b)) (reset FL c) b k
    (wf_reset FL c) EJ (fun x => eq_refl)) as (fuel & c' & b' & k' & l & m' & E & _ & _ & M & P & IB).
  exists fuel, c', b', k', l. split; [exact E|]. apply (sorted_end_run s up c' (mo b) m'); try assumption.
  exact (runl_ram Hs mo _ (co_ram _ _ HC) _ _ _ _ _ _ E).
Qed.
End Thm.
Lemma limits_ram {Q TS WB RB BS CK} (FL : Flavour Q) da (Hs : host TS WB RB BS CK) mo resume c b k c' b' k' l :
  ram_host Hs mo -> keeps mo resume -> run_with_limits FL da Hs resume c b k c' b' k' l -> ram_log (mo b) (buses l) (mo b').
Proof.
  intros R K. induction 1 as [fuel c b k c' b' k' l E|fuel w c b k c1 b1 k1 l1 c' b' k' l E _ IH].
  - exact (runl_ram Hs mo _ R _ _ _ _ _ _ E).
  - rewrite buses_app'. apply (ram_log_app _ _ _ (mo b1)); [exact (runl_ram Hs mo _ R _ _ _ _ _ _ E)|].
    apply (ram_log_ext _ (mo (resume w b1))); [intros; apply K|exact IH].
Qed.
Section Lim.
Context {Q T TS WB RB BS : Type}.
Variables (FL : Flavour Q) (ch : chip T) (absq : Q -> T).
Context (OK : models FL ch absq).
Theorem sorts_with_limit s up da (Hs : host TS WB RB BS Z) mo W lim resume c b k : computer Hs mo -> keeps mo resume ->
  0 < bits W -> ts_clock W Hs -> (forall k, h_is_past_limit Hs k = (lim <=? k)) -> in_type W k -> in_type W lim ->
  k + sort_time s < lim -> loaded (mo b) (sort_at s up) ->
  exists c' b' k' l, run_with_limits FL da Hs resume (reset FL c) b k c' b' k' l /\ k' = k + tsum (clocks l) /\
    sorted_run s up c' (mo b) (mo b') (buses l) (tsum (clocks l)).
Proof.
  intros HC KR HW CK HP K0 KL HT HL. destruct (reset_state FL absq c) as [j EJ].
  assert (V := will_sort (WB:=WB) (RB:=RB) ch s up 255 255 0 0 0 65535 (mkRest 65535 0 0 0 0 0) j (mo b) HL (rh_byte _ _ (co_ram _ _ HC) b)).
  destruct (will_limits FL ch absq (models_ok _ _ _ OK) Hs mo HC W HW CK k lim K0 KL HP resume KR 712 1506 (sorted_end s up (mo b))
    ltac:(intros ? ? ? ? (_ & _ & _ & _ & _ & _ & _ & B); lia) da _ _ _ V (reset FL c) b (wf_reset FL c) EJ (fun x => eq_refl) eq_refl)
    as (c' & b' & k' & l & m' & E & _ & _ & M & KE & P & IB).
  exists c', b', k', l. split; [exact E|]. split; [exact KE|]. apply (sorted_end_run absq s up c' (mo b) m'); try assumption.
  exact (limits_ram _ _ _ _ _ _ _ _ _ _ _ _ (co_ram _ _ HC) KR E).
Qed.
End Lim.
(** Sorting all the bytes there are. *)
Lemma sorted_unique (R : Z -> Z -> Prop) : (forall x y, R x y -> R y x -> x = y) -> forall l l' : list Z,
  Permutation l l' -> StronglySorted R l -> StronglySorted R l' -> l = l'.
Proof.
  intros AS. induction l as [|x l IH]; intros l' P S S'.
  - symmetry. now apply Permutation_nil.
  - destruct l' as [|y l']; [apply Permutation_sym, Permutation_nil in P; discriminate|].
    inversion S as [|? ? S1 F1]; subst. inversion S' as [|? ? S2 F2]; subst. rewrite Forall_forall in F1, F2.
    assert (x = y) as <-.
    { assert (I1 : In x (y :: l')) by (apply (Permutation_in x P); now left).
      assert (I2 : In y (x :: l)) by (apply (Permutation_in y (Permutation_sym P)); now left).
      destruct I1 as [I1|I1]; [easy|]. destruct I2 as [I2|I2]; [easy|]. apply AS; [now apply F1|now apply F2]. }
    f_equal. apply IH; [|assumption..]. now apply Permutation_cons_inv in P.
Qed.
Lemma iota_sorted n : forall d, StronglySorted Z.le (map Z.of_nat (seq d n)).
Proof.
  induction n as [|n IH]; intros d; cbn [seq map]; constructor; [apply IH|].
  apply Forall_forall. intros y Hy. apply in_map_iff in Hy. destruct Hy as (k & <- & Hk). apply in_seq in Hk. lia.
Qed.
Lemma sorted_snoc (R : Z -> Z -> Prop) l x : StronglySorted R l -> (forall y, In y l -> R y x) -> StronglySorted R (l ++ [x]).
Proof.
  induction l as [|y l IH]; intros S H; cbn [app].
  - constructor; constructor.
  - inversion S; subst. constructor; [apply IH; [assumption|intros; apply H; now right]|].
    apply Forall_app. split; [assumption|]. constructor; [apply H; now left|constructor].
Qed.
Lemma rev_sorted (R : Z -> Z -> Prop) l : StronglySorted R l -> StronglySorted (fun x y => R y x) (rev l).
Proof.
  induction 1 as [|x l S IH F]; cbn [rev]; [constructor|]. apply sorted_snoc; [exact IH|].
  intros y Hy. rewrite Forall_forall in F. apply F. now apply in_rev.
Qed.
Lemma sorted_all up l : Permutation (map Z.of_nat (seq 0 256)) l -> StronglySorted (order up) l ->
  l = if up then map Z.of_nat (seq 0 256) else rev (map Z.of_nat (seq 0 256)).
Proof.
  intros P S. symmetry. destruct up; unfold order in S.
  - apply (sorted_unique Z.le); [intros; lia|exact P|apply iota_sorted|exact S].
  - apply (sorted_unique Z.ge); [intros; lia| | |exact S].
    + now rewrite <- Permutation_rev.
    + assert (G := rev_sorted Z.le _ (iota_sorted 256 0)). induction G as [|a0 l0 _ IH F]; constructor; [exact IH|].
      eapply Forall_impl; [|exact F]. cbn. intros; lia.
Qed.
Lemma cells_nth m a n i : (i < n)%nat -> nth i (cells m a n) 0 = m (a + Z.of_nat i).
Proof.
  intros H. unfold cells. rewrite nth_indep with (d' := (fun i => m (a + Z.of_nat i)) 0%nat) by (rewrite map_length, seq_length; exact H).
  rewrite (map_nth (fun i => m (a + Z.of_nat i))), seq_nth by exact H. reflexivity.
Qed.
