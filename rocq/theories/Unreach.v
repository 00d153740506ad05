(** The masked codes matched by the parsers of parse.rs are always among the enumerated values, so the
    [unreachable_unchecked] arms (parse.rs:65-190, 378-391) are dead.  For every integer. *)
From Coq Require Import ZArith Bool List Lia.
From Verif Require Import Base Parse AluProofs.
Import ListNotations.
Open Scope Z_scope.

Lemma land_sub c m n : m = Z.land m (Z.ones n) -> 0 <= n -> Z.land c m = Z.land (c mod 2 ^ n) m.
Proof.
  intros Hm Hn. rewrite <- Z.land_ones by assumption. rewrite <- Z.land_assoc.
  rewrite (Z.land_comm (Z.ones n) m), <- Hm. reflexivity.
Qed.
Definition memb (x : Z) (l : list Z) : bool := existsb (Z.eqb x) l.
Lemma memb_In x l : memb x l = true -> In x l.
Proof. unfold memb. rewrite existsb_exists. intros (y & Hy & E). apply Z.eqb_eq in E. now subst. Qed.
Lemma all_bytes (f : Z -> bool) : forallb f (map Z.of_nat (seq 0 256)) = true -> forall c, byte c -> f c = true.
Proof.
  intros H c Hc. rewrite forallb_forall in H. apply H. apply in_map_iff. exists (Z.to_nat c).
  unfold byte in Hc. split; [lia|]. apply in_seq. lia.
Qed.
Lemma mask_values c m vals :
  m = Z.land m (Z.ones 8) -> forallb (fun b => memb (Z.land b m) vals) (map Z.of_nat (seq 0 256)) = true ->
  In (Z.land c m) vals.
Proof.
  intros Hm H. rewrite (land_sub c m 8) by (assumption || lia). apply memb_In.
  apply (all_bytes _ H). unfold byte. apply Z.mod_pos_bound. reflexivity.
Qed.
Lemma reg8_values_ok c : In (Z.land c 7) reg8_values.
Proof. apply mask_values; reflexivity. Qed.
Lemma rp_values_ok c : In (Z.land c 0x30) rp_values.
Proof. apply mask_values; reflexivity. Qed.
Lemma y_values_ok c : In (Z.land c 0x38) y_values.
Proof. apply mask_values; reflexivity. Qed.
Lemma bitops_values_ok c : In (Z.land c 0xC0) bitops_values.
Proof. apply mask_values; reflexivity. Qed.
