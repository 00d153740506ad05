(** The code of the shuffle test on the specification: where it is, how it is stepped through, the start-up code and cells of
    memory. *)
From Coq Require Import ZArith Bool List Permutation Sorted Lia.
From Verif Require Import Base Parse Clock SpecAlu SpecState SpecIsa SpecProgram IsaRun Trace Hoare Asm Shuffle.
Import ListNotations.
Open Scope Z_scope.

Definition bytes (m : mem) : Prop := forall x, 0 <= m x < 256.
Definition code (m : mem) : Prop := forall i, 0 <= i < 712 -> m i = nth (Z.to_nat i) image 0.
Lemma code_upd m a v : code m -> 712 <= a -> code (mupd m a v).
Proof. intros H Ha i Hi. unfold mupd. destruct (Z.eqb_spec i a); [lia|now apply H]. Qed.
Ltac code_rw := repeat match goal with
  | Hc : code ?m |- context [?m (Zpos ?p)] =>
      let b := eval vm_compute in (Zpos p <? 712) in lazymatch b with true => idtac end;
      let v := eval vm_compute in (nth (Z.to_nat (Zpos p)) image 0) in
      replace (m (Zpos p)) with v by (symmetry; exact (Hc (Zpos p) (conj (Zle_0_pos p) eq_refl)))
  | Hc : code ?m |- context [?m 0] => replace (m 0) with 243 by (symmetry; refine (Hc 0 _); lia)
  end.
Ltac wside := first [lia | apply lo_range | apply hi_range; lia].
Ltac words := repeat match goal with
  | |- context [w16 ?x] => rewrite (w16_id x) by lia
  | |- context [(?x mod 256)] => rewrite (mod_byte x) by wside
  | |- context [w8 ?x] => rewrite (w8_id x) by lia
  | |- context [hi (word_of ?h ?l)] => rewrite (hi_word h l) by wside
  | |- context [lo (word_of ?h ?l)] => rewrite (lo_word h l) by wside
  | |- context [word_of (hi ?x) (lo ?x)] => rewrite (word_hi_lo x)
  end.
Ltac acc_ok := repeat match goal with
  | |- readable _ _ /\ _ => split; [unfold readable; lia|]
  | |- writable _ _ _ /\ _ => split; [unfold writable; lia|]
  | |- 0 <= _ /\ _ => split; [lia|]
  end.
Ltac refold1 := lazymatch goal with
  | |- ?w (mkArch ?a ?f ?bc ?de ?hl ?af1 ?bc1 ?de1 ?hl1 ?ix ?iy ?sp ?pc ?wz ?i ?r ?im false ?iff2 ?h false None ?q) ?m ?o ?n =>
    let x := lazymatch constr:((af1, bc1, de1, hl1, ix, iy)) with
             | (rAF ?x, rBC ?x, rDE ?x, rHL ?x, rIX ?x, rIY ?x) => x
             | _ => constr:(mkRest af1 bc1 de1 hl1 ix iy) end in
    let S := lazymatch h with true => constr:(@Ht) | false => constr:(@St) end in
    change (w (S _ pc sp a f bc de hl x (mkJunk wz i r im iff2 q)) m o n);
    generalize (mkJunk wz i r im iff2 q); let j := fresh "j" in intros j
    end.
Ltac flags := rewrite ?Cf_cp, ?Zf_dec, ?Cf_dec, ?Zf_inc, ?Cf_inc, ?Pf_ldx, ?fst_dec, ?fst_inc; cbn [negb].
(** ED and CB groups. *)
Ltac sub := try match goal with
  | |- context [ed_decode ?v] => let i := eval vm_compute in (ed_decode v) in change (ed_decode v) with i; lazy beta iota zeta delta [ed_step]; cyc; wnum; words; flags; wnum; cyc
  | |- context [cb_decode ?v] => let i := eval vm_compute in (cb_decode v) in change (cb_decode v) with i; lazy beta iota zeta delta [cb_reg cb_mem cb rot]; cyc; wnum; words; flags; wnum; cyc
  end.
(** What follows an op-code fetch. *)
Ltac body := cbn [negb]; cyc; wnum; words; flags; wnum; cyc; wnum; code_rw; sub; wnum; words; acc_ok; try (split; [reflexivity|]; refold1).
Ltac istep := apply will_op; [lia|]; let q := fresh "q" in let j := fresh "j" in intros q j; wnum; code_rw;
  match goal with |- context [decode ?v] => let i := eval vm_compute in (decode v) in change (decode v) with i end; body; try clear q; try clear j.
(** After writes: a name for the memory. *)
Ltac setm m1 E1 C1 := match goal with |- will _ _ _ _ _ ?mm _ _ =>
  assert (C1 : code mm) by (repeat (apply code_upd; [|lia]); assumption);
  let mm' := eval unfold mupd in mm in
  assert (E1 : forall x, mm x = mm' x) by (intros; reflexivity);
  set (m1 := mm) in *; clearbody m1; cbv beta in E1 end.
(** A value of such a memory. *)
Ltac at_mem E := rewrite ?E; repeat match goal with |- context [(?x =? ?y)] => destruct (Z.eqb_spec x y); try lia end.
(** ... which is a byte. *)
Ltac mem_bytes E := let x := fresh "x" in intros x; rewrite E; repeat match goal with |- context [(?x =? ?y)] => destruct (x =? y) end;
  first [ lia | apply lo_range | apply Z.mod_pos_bound; lia | apply hi_range; lia | match goal with H : bytes _ |- _ => apply H end ].

(** ** Cells *)
Lemma cells_nth m a n : forall i, (i < n)%nat -> nth i (cells m a n) 0 = m (a + Z.of_nat i).
Proof. intros i Hi. unfold cells. rewrite (nth_indep _ 0 (m (a + Z.of_nat 0))) by (now rewrite map_length, seq_length). rewrite map_nth with (f := fun i => m (a + Z.of_nat i)), seq_nth; [reflexivity|assumption]. Qed.
Lemma cells_perm m m' a n (s : Z -> Z) :
  (forall x, a <= x < a + Z.of_nat n -> a <= s x < a + Z.of_nat n) ->
  (forall x y, a <= x < a + Z.of_nat n -> a <= y < a + Z.of_nat n -> s x = s y -> x = y) ->
  (forall x, a <= x < a + Z.of_nat n -> m' x = m (s x)) -> Permutation (cells m a n) (cells m' a n).
Proof.
  intros HR HI HM.
  assert (E : cells m' a n = map (fun i => m (a + Z.of_nat i)) (map (fun i => Z.to_nat (s (a + Z.of_nat i) - a)) (seq 0 n))).
  { unfold cells. rewrite map_map. apply map_ext_in. intros i Hi. apply in_seq in Hi. rewrite HM by lia. f_equal.
    assert (H := HR (a + Z.of_nat i)). lia. }
  rewrite E. unfold cells. apply Permutation_map. apply NoDup_Permutation_bis.
  - apply seq_NoDup.
  - rewrite map_length, seq_length. lia.
  - assert (D : NoDup (map (fun i => Z.to_nat (s (a + Z.of_nat i) - a)) (seq 0 n))).
    { clear E. assert (HS : forall i, In i (seq 0 n) -> (i < n)%nat) by (intros i Hi; apply in_seq in Hi; lia).
      revert HS. generalize (seq_NoDup n 0). generalize (seq 0 n). intros l. induction 1 as [|x l HN D IH]; cbn [map]; intros HS; constructor.
      - rewrite in_map_iff. intros (y & Ey & Hy). assert (Hx := HS x (or_introl eq_refl)). assert (Hy' := HS y (or_intror Hy)).
        assert (H1 := HR (a + Z.of_nat x)). assert (H2 := HR (a + Z.of_nat y)).
        assert (a + Z.of_nat y = a + Z.of_nat x) by (apply HI; lia). assert (x = y) by lia. now subst.
      - apply IH. intros i Hi. apply HS. now right. }
    intros i Hi. apply (NoDup_length_incl (l' := seq 0 n) D).
    + rewrite map_length, !seq_length. lia.
    + intros z Hz. apply in_map_iff in Hz. destruct Hz as (y & <- & Hy). apply in_seq in Hy. apply in_seq.
      assert (H1 := HR (a + Z.of_nat y)). lia.
    + exact Hi.
Qed.
Lemma cells_swap m m' a n i j : a <= i < a + Z.of_nat n -> a <= j < a + Z.of_nat n -> m' i = m j -> m' j = m i ->
  (forall x, a <= x < a + Z.of_nat n -> x <> i -> x <> j -> m' x = m x) -> Permutation (cells m a n) (cells m' a n).
Proof.
  intros Hi Hj Ei Ej Ex. apply (cells_perm m m' a n (fun x => if x =? i then j else if x =? j then i else x)).
  - intros x Hx. destruct (Z.eqb_spec x i); [assumption|]. destruct (Z.eqb_spec x j); assumption.
  - intros x y Hx Hy. destruct (Z.eqb_spec x i), (Z.eqb_spec x j), (Z.eqb_spec y i), (Z.eqb_spec y j); lia.
  - intros x Hx. destruct (Z.eqb_spec x i) as [->|]; [assumption|]. destruct (Z.eqb_spec x j) as [->|]; [assumption|]. now apply Ex.
Qed.
Lemma cells_sorted (R : Z -> Z -> Prop) m a : forall n, (forall x y, a <= x -> x < y -> y < a + Z.of_nat n -> R (m x) (m y)) ->
  StronglySorted R (cells m a n).
Proof.
  intros n. unfold cells.
  assert (H : forall k s, (forall x y, a + Z.of_nat s <= x -> x < y -> y < a + Z.of_nat (s + k) -> R (m x) (m y)) ->
    StronglySorted R (map (fun i => m (a + Z.of_nat i)) (seq s k))).
  { induction k as [|k IH]; intros s Hs; cbn [seq map]; constructor.
    - apply IH. intros x y H1 H2 H3. apply Hs; lia.
    - apply Forall_forall. intros z Hz. apply in_map_iff in Hz. destruct Hz as (y & <- & Hy). apply in_seq in Hy. apply Hs; lia. }
  intros Hs. apply H. intros x y H1 H2 H3. apply Hs; lia.
Qed.
Lemma cells_ext m m' a n : (forall x, a <= x < a + Z.of_nat n -> m' x = m x) -> cells m' a n = cells m a n.
Proof. intros H. unfold cells. apply map_ext_in. intros i Hi. apply in_seq in Hi. apply H. lia. Qed.

Section Kernel.
Context {T WB RB : Type}.
Variable ch : chip T.
Variable P : arch T -> mem -> outs -> Z -> Prop.
Notation will := (will (WB:=WB) (RB:=RB) ch 712 1506 P).
(** [DI; LD HL,stackend; LD SP,HL; JP start; start: LD HL,(routine); RST 08h] and [JP (HL)] at 0008h. *)
Lemma kernel_start sp a f bc de hl x (j : junk T) m o n : code m -> bytes m ->
  (forall m' j t, code m' -> bytes m' -> t <= n + 70 -> m' 1504 = 13 -> m' 1505 = 0 -> (forall x, x < 1504 -> m' x = m x) ->
     will (St (word_of (m 973) (m 972)) 1504 a f bc de (word_of (m 973) (m 972)) x j) m' o t) ->
  will (St 0 sp a f bc de hl x j) m o n.
Proof.
  intros Hc Hb K. istep. istep. istep. istep. istep. istep. setm m1 E1 C1. istep. apply K; try lia; try assumption.
  - mem_bytes E1.
  - now rewrite E1.
  - now rewrite E1.
  - intros y Hy. at_mem E1.
Qed.
(** The return of the routine: HALT. *)
Lemma kernel_end sp a f bc de hl x (j : junk T) m o n : code m ->
  (forall j, P (Ht 13 sp a f bc de hl x j) m o (n + 4)) -> will (St 13 sp a f bc de hl x j) m o n.
Proof. intros Hc K. istep. apply w_now; [reflexivity|]. apply K. Qed.
End Kernel.
