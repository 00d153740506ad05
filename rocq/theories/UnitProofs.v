(** Facts about scripts, and the one script with too many cases to run: [bit_works] (ops.rs:1134-1183) tries 526336. *)
From Coq Require Import ZArith Bool List Lia Btauto.
From Verif Require Import Base Flags Ops UnitScript UnitOps.
Import ListNotations.
Open Scope Z_scope.

Definition ends (o : option Z) : Prop := exists fl, o = Some fl.

Lemma go_script : forall b fl,
  (fix go (b : list stmt) (fl : Z) : option Z :=
     match b with
     | [] => Some fl
     | s :: b => match perform s fl with Some fl' => go b fl' | None => None end
     end) b fl = script b fl.
Proof.
  induction b as [|s b IH]; intros fl; [reflexivity|].
  cbn [script]. destruct (perform s fl); [apply IH|reflexivity].
Qed.
Lemma each_ends : forall l body fl,
  Forall (fun i => forall fl, ends (script (body i) fl)) l -> ends (perform (Each l body) fl).
Proof.
  induction l as [|i l IH]; intros body fl F; [exists fl; reflexivity|].
  inversion F as [|? ? Hi Fl]; subst.
  destruct (Hi fl) as [fl' E]. rewrite <- go_script in E.
  destruct (IH body fl' Fl) as [fl'' E2]. exists fl''.
  cbn [perform]. rewrite E. exact E2.
Qed.
Lemma upto_in : forall lo hi i, In i (upto lo hi) -> lo <= i <= hi.
Proof.
  unfold upto. intros lo hi i H. apply in_map_iff in H. destruct H as (n & <- & H).
  apply in_seq in H. lia.
Qed.
Lemma each_upto : forall lo hi body fl,
  (forall i fl, lo <= i <= hi -> ends (script (body i) fl)) -> ends (perform (Each (upto lo hi) body) fl).
Proof.
  intros lo hi body fl H. apply each_ends, Forall_forall. intros i Hi fl0. apply H, upto_in, Hi.
Qed.
Lemma script_one : forall s fl, ends (perform s fl) -> ends (script [s] fl).
Proof. intros s fl [fl' E]. exists fl'. cbn [script]. rewrite E. reflexivity. Qed.
Lemma script_two : forall s t fl, (forall fl, ends (perform s fl)) -> (forall fl, ends (perform t fl)) ->
  ends (script [s; t] fl).
Proof.
  intros s t fl Hs Ht. destruct (Hs fl) as [f1 E1]. destruct (Ht f1) as [f2 E2].
  exists f2. cbn [script]. rewrite E1, E2. reflexivity.
Qed.
Lemma check_step : forall p fl b, p fl = true -> script (Check p :: b) fl = script b fl.
Proof. intros p fl b E. cbn [script perform]. rewrite E. reflexivity. Qed.
Lemma set_step : forall v fl b, script (Set_ v :: b) fl = script b v.
Proof. reflexivity. Qed.
Lemma none_step : forall f fl b, script (Call (none_of f) [] :: b) fl = script b (f fl).
Proof. reflexivity. Qed.

Definition is_mask (m : Z) : Prop := In m [1; 2; 4; 8; 16; 32; 64; 128].
Lemma mask_is : forall b, 0 <= b <= 7 -> is_mask (shl8 1 b).
Proof.
  intros b H. assert (b = 0 \/ b = 1 \/ b = 2 \/ b = 3 \/ b = 4 \/ b = 5 \/ b = 6 \/ b = 7) as C by lia.
  unfold is_mask. repeat (destruct C as [-> | C]; [vm_compute; tauto|]). subst. vm_compute. tauto.
Qed.
Lemma xy_of : forall v, Z.land FXY (Z.land v 255) = Z.land v FXY.
Proof. intros v. rewrite (Z.land_comm v 255), Z.land_assoc. apply Z.land_comm. Qed.

(** What [bit] and [bit_mp] leave, given the byte [w] that bits 3 and 5 come from. *)
Definition after_bit (m v w f : Z) : Z :=
  let res := Z.land v m in
  Z.lor (Z.lor (Z.lor (Z.lor (mask_sign res) (mask_xy w)) FH) (Z.land f FC)) (fif (res =? 0) (Z.lor FZ FPV)).
Lemma lor_in : forall i m, Z.land (Z.lor i m) m = m.
Proof.
  intros. apply Z.bits_inj'. intros k _. rewrite Z.land_spec, Z.lor_spec. btauto.
Qed.
Lemma ldiff_out : forall i m, is_mask m -> Z.land (Z.land i (not8 m)) m = 0.
Proof.
  intros i m H. rewrite <- Z.land_assoc.
  replace (Z.land (not8 m) m) with 0; [apply Z.land_0_r|].
  unfold is_mask in H. cbn [In] in H.
  repeat (destruct H as [<- | H]; [reflexivity|]). contradiction.
Qed.
Ltac bits := apply Z.bits_inj'; intros k _; rewrite ?Z.lor_spec; btauto.
Lemma mask_facts : forall m, is_mask m -> (m =? 0) = false /\ Z.land FS (Z.land m 255) = mask_sign m.
Proof.
  intros m H. unfold is_mask in H. cbn [In] in H.
  repeat (destruct H as [<- | H]; [split; reflexivity|]). contradiction.
Qed.
Lemma set_all : forall m v w, is_mask m -> Z.land v m = m ->
  Z.lor (Z.lor (Z.lor FH FC) (Z.land FXY (Z.land w 255))) (Z.land FS (Z.land m 255)) = after_bit m v w 255.
Proof.
  intros m v w H E. destruct (mask_facts m H) as [E0 ES].
  unfold after_bit. cbv zeta. rewrite E, xy_of, E0, ES. unfold mask_xy, fif. rewrite Z.lor_0_r.
  change (Z.land 255 FC) with FC. bits.
Qed.
Lemma set_none : forall m v w, is_mask m -> Z.land v m = m ->
  Z.lor (Z.lor (Z.lor FH (Z.land FXY (Z.land w 255))) (Z.land FXY (Z.land w 255))) (Z.land FS (Z.land m 255))
  = after_bit m v w 0.
Proof.
  intros m v w H E. destruct (mask_facts m H) as [E0 ES].
  unfold after_bit. cbv zeta. rewrite E, !xy_of, E0, ES. unfold mask_xy, fif. rewrite Z.lor_0_r.
  change (Z.land 0 FC) with 0. rewrite Z.lor_0_r. bits.
Qed.
Lemma clear_all : forall m v w, Z.land v m = 0 ->
  Z.lor (Z.lor (Z.lor (Z.lor FZ FPV) FH) FC) (Z.land FXY (Z.land w 255)) = after_bit m v w 255.
Proof.
  intros m v w E. unfold after_bit. cbv zeta. rewrite E, xy_of. unfold mask_xy.
  change (fif (0 =? 0) (Z.lor FZ FPV)) with (Z.lor FZ FPV). change (mask_sign 0) with 0. rewrite Z.lor_0_l.
  change (Z.land 255 FC) with FC. bits.
Qed.
Lemma clear_none : forall m v w, Z.land v m = 0 ->
  Z.lor (Z.lor (Z.lor FZ FPV) FH) (Z.land FXY (Z.land w 255)) = after_bit m v w 0.
Proof.
  intros m v w E. unfold after_bit. cbv zeta. rewrite E, xy_of. unfold mask_xy.
  change (fif (0 =? 0) (Z.lor FZ FPV)) with (Z.lor FZ FPV). change (mask_sign 0) with 0. rewrite Z.lor_0_l.
  change (Z.land 0 FC) with 0. rewrite Z.lor_0_r. bits.
Qed.
Lemma bit_after : forall b v f, bit b v f = after_bit (shl8 1 b) v v f.
Proof. reflexivity. Qed.
Lemma bit_mp_after : forall b v w f, bit_mp b v w f = after_bit (shl8 1 b) v w f.
Proof. reflexivity. Qed.

Lemma bit_works_passes : passes ops_bit_works = true.
Proof.
  assert (E : ends (script ops_bit_works 0)).
  { unfold ops_bit_works. apply script_two; intros fl.
    - apply each_upto. intros i f1 Hi. apply script_one, each_upto. intros b f2 Hb.
      cbv zeta. pose proof (mask_is b Hb) as M.
      rewrite set_step, none_step, check_step by (apply Z.eqb_eq; rewrite bit_after; apply set_all; [exact M|apply lor_in]).
      rewrite set_step, none_step, check_step by (apply Z.eqb_eq; rewrite bit_after; apply set_none; [exact M|apply lor_in]).
      rewrite set_step, none_step, check_step by (apply Z.eqb_eq; rewrite bit_after; apply clear_all, ldiff_out, M).
      rewrite set_step, none_step, check_step by (apply Z.eqb_eq; rewrite bit_after; apply clear_none, ldiff_out, M).
      eexists. reflexivity.
    - apply each_upto. intros i f1 Hi. apply script_one, each_upto. intros mp f0 Hm.
      apply script_one, each_upto. intros b f2 Hb.
      cbv zeta. pose proof (mask_is b Hb) as M.
      rewrite set_step, none_step, check_step by (apply Z.eqb_eq; rewrite bit_mp_after; apply set_all; [exact M|apply lor_in]).
      rewrite set_step, none_step, check_step by (apply Z.eqb_eq; rewrite bit_mp_after; apply set_none; [exact M|apply lor_in]).
      rewrite set_step, none_step, check_step by (apply Z.eqb_eq; rewrite bit_mp_after; apply clear_all, ldiff_out, M).
      rewrite set_step, none_step, check_step by (apply Z.eqb_eq; rewrite bit_mp_after; apply clear_none, ldiff_out, M).
      eexists. reflexivity. }
  destruct E as [fl E]. unfold passes. rewrite E. reflexivity.
Qed.

Lemma all_pass : Forall (fun t => passes t = true) all_scripts.
Proof.
  unfold all_scripts.
  repeat (apply Forall_cons;
    [lazymatch goal with |- passes ops_bit_works = true => exact bit_works_passes | _ => vm_compute; reflexivity end|]).
  apply Forall_nil.
Qed.
