(** The parallel port takes the terminal's next byte when the last one was read, and tries a byte again that was refused. *)
From Coq Require Import ZArith Bool List Lia.
From Verif Require Import Base RalBus RalPio SpecPio RalPioProofs.
Import ListNotations.
Open Scope Z_scope.

Section N.
Context {S R D : Type} (slurp : S -> S * option Z) (flush : Z -> R -> R * bool) (dv : dev D).
Notation pd := (ral_pio (taped slurp) flush dv).
Notation PA := (pio_input (taped slurp)).
Notation P0 := (pio ((S * list Z) * bool) (R * option Z) D).
(** Ready for a byte of the stream [s]. *)
Definition waits (s : S * list Z) (c : chan ((S * list Z) * bool)) : Prop := ch_output c = false /\ ch_ready c = true /\ ch_dev c = (s, true).
Lemma waits_step s o x c c' : moves PA 8 o x c c' -> is_reset o = false -> (forall v, word_to 9 o = Some v -> mode_word v = false) -> polls o = false -> waits s c -> waits s c'.
Proof.
  intros M RS W PL (O & RD & DV). destruct o as [t|t|t|n|q t|q v t|t|pc t|pc t]; cbn [moves] in M; try discriminate.
  - subst c'. unfold chan_m1. destruct (ch_want c); repeat split; cbn; assumption.
  - subst c'. repeat split; assumption.
  - destruct (_ || _); [|subst c'; repeat split; assumption]. destruct M as (v & M & _). unfold chan_read in M. rewrite O in M. destruct (add32 t _); [|discriminate M].
    injection M as <- _. repeat split; cbn. now rewrite DV.
  - cbn [word_to] in W. destruct (q mod 256 =? 8).
    + unfold chan_write_data in M. rewrite O in M. injection M as <-. repeat split; cbn; assumption.
    + change (8 + 1) with 9 in M. destruct (q mod 256 =? 9); [|subst c'; repeat split; assumption].
      specialize (W v eq_refl). unfold mode_word in W. rewrite control_cases, W in M. destruct (v mod 2 =? 0); [injection M as <-; repeat split; cbn; assumption|].
      destruct (v mod 16 =? 7); [discriminate M|]. destruct (v mod 16 =? 3); [destruct (Z.testbit v 7); [destruct (ch_ints c)|]|]; injection M as <-; repeat split; cbn; assumption.
  - destruct M as [->|(_ & -> & _)]; repeat split; cbn; assumption.
  - subst c'. repeat split; assumption.
Qed.
Lemma waits_ops s ops : forall (p p' : P0) l, dev_ops pd ops p = Some (p', l) ->
  Forall (fun o => is_reset o = false /\ (forall v, word_to 9 o = Some v -> mode_word v = false) /\ polls o = false) ops -> waits s (pio_a p) -> waits s (pio_a p').
Proof.
  induction ops as [|o ops IH]; intros p p' l E F Hw; cbn [dev_ops] in E; [now injection E as <- _|].
  destruct (dev_do pd o p) as [[p1 x]|] eqn:E1; [|discriminate E]. destruct (dev_ops pd ops p1) as [[p2 l2]|] eqn:E2; [|discriminate E]. injection E as <- _.
  inversion F as [|a b (F1 & F2 & F3) F4]; subst. refine (IH _ _ _ E2 F4 _). exact (waits_step _ _ _ _ _ (proj1 (do_moves _ _ _ _ _ _ _ E1)) F1 F2 F3 Hw).
Qed.
Lemma next_taken o x (p0 p1 p2 p3 : P0) ops l s v y o2 : dev_do pd o p0 = Some (p1, x) ->
  is_reset o = true \/ (exists w, word_to 9 o = Some w /\ selects 1 w) \/ ch_output (pio_a p0) = false /\ (exists q t, o = BIn q t /\ q mod 256 = 8) ->
  dev_ops pd ops p1 = Some (p2, l) -> Forall (fun o => is_reset o = false /\ (forall v, word_to 9 o = Some v -> mode_word v = false) /\ polls o = false) ops ->
  slurp (fst (fst (ch_dev (pio_a p1)))) = (s, Some v) -> dev_do pd o2 p2 = Some (p3, y) -> (exists t, o2 = BFrame t \/ o2 = BIrq t /\ pio_ieo p2 = false) ->
  snd (fst (ch_dev (pio_a p3))) = snd (fst (ch_dev (pio_a p1))) ++ [v mod 256] /\
  forall q t p4 z, q mod 256 = 8 -> dev_do pd (BIn q t) p3 = Some (p4, z) -> z = AByte (v mod 256).
Proof.
  intros E1 HO E2 F SL E3 PO. pose proof (proj1 (do_moves _ _ _ _ _ _ _ E1)) as M1.
  assert (W1 : waits (fst (ch_dev (pio_a p1))) (pio_a p1)).
  { destruct HO as [RS|[(w & WT & S1 & S2)|(O & q & t & -> & Q)]].
    - destruct o; try discriminate RS. cbn [moves] in M1. rewrite M1. repeat split.
    - destruct o as [| | | | |q u t| | |]; try discriminate WT. cbn [word_to] in WT. cbn [moves] in M1. destruct (Z.eqb_spec (q mod 256) 9) as [Q|]; [|discriminate WT]. injection WT as ->. rewrite Q in M1. cbn [Z.eqb Pos.eqb] in M1.
      change (9 =? 8 + 1) with true in M1. cbv iota in M1. rewrite control_cases, S1, S2 in M1. replace (w mod 2 =? 0) with false in M1 by (symmetry; apply Z.eqb_neq; lia).
      cbn [Z.eqb Pos.eqb] in M1. injection M1 as <-. repeat split.
    - cbn [moves] in M1. rewrite Q in M1. cbn [Z.eqb Pos.eqb orb] in M1. destruct M1 as (u & M1 & _). unfold chan_read in M1. rewrite O in M1.
      destruct (add32 t _); [|discriminate M1]. injection M1 as M1 _. rewrite <- M1. repeat split. }
  pose proof (waits_ops _ _ _ _ _ E2 F W1) as (O & RD & DV).
  assert (C : pio_a p3 = fst (chan_check PA (op_time o2) (pio_a p2))).
  { destruct PO as (t & [->|[-> IE]]); [exact (proj1 (do_moves _ _ _ _ _ _ _ E3))|]. cbn [op_time dev_do ral_pio pio_dev dv_is_irq] in *. unfold pio_is_irq in E3. rewrite IE in E3. destruct (chan_check PA t (pio_a p2)) as [a ia]. cbn [fst]. destruct ia; [injection E3 as <- _; reflexivity|].
    destruct (chan_check _ t (pio_b p2)) as [b ib]. destruct ib; [injection E3 as <- _; reflexivity|]. unfold map_next in E3. cbn [pio_a pio_b pio_ieo pio_next] in E3. destruct (dv_is_irq dv t (pio_next p2)) as [[d1 i]|]; [|discriminate E3]. injection E3 as <- _. reflexivity. }
  assert (N : snd (fst (ch_dev (pio_a p3))) = snd (fst (ch_dev (pio_a p1))) ++ [v mod 256] /\ ch_in (pio_a p3) = v mod 256 /\ ch_output (pio_a p3) = false).
  { rewrite C. unfold chan_check. rewrite RD, O, DV. cbn [pd_sample pio_input snd fst]. unfold taped. rewrite SL. unfold chan_set_int. cbn [ch_ints]. destruct (ch_ints (pio_a p2)); repeat split. }
  destruct N as (N1 & N2 & N3). split; [exact N1|]. intros q t p4 z Q E4. pose proof (proj1 (do_moves _ _ _ _ _ _ _ E4)) as M4. cbn [moves] in M4. rewrite Q in M4. cbn [Z.eqb Pos.eqb orb] in M4.
  destruct M4 as (u & M4 & ->). unfold chan_read in M4. rewrite N3, N2 in M4. destruct (add32 t _); [|discriminate M4]. now injection M4 as _ <-.
Qed.
End N.

Section Retry.
Context {S R D : Type} (slurp : S -> S * option Z) (flush : Z -> R -> R * bool) (dv : dev D).
Notation pd := (ral_pio slurp (taped_sink flush) dv).
Notation PB := (pio_output (taped_sink flush)).
Notation P0 := (pio (S * bool) ((R * list Z) * option Z) D).
(** The byte [v] waits for the sink [r]. *)
Definition pends (v : Z) (r : R * list Z) (c : chan ((R * list Z) * option Z)) : Prop := ch_output c = true /\ ch_ready c = true /\ ch_dev c = (r, Some v).
Lemma pends_step v r o x c c' : moves PB 10 o x c c' -> is_reset o = false -> word_to 10 o = None -> (forall v, word_to 11 o = Some v -> mode_word v = false) -> polls o = false -> pends v r c -> pends v r c'.
Proof.
  intros M RS WD W PL (O & RD & DV). destruct o as [t|t|t|n|q t|q u t|t|pc t|pc t]; cbn [moves] in M; try discriminate.
  - subst c'. unfold chan_m1. destruct (ch_want c); repeat split; cbn; assumption.
  - subst c'. repeat split; assumption.
  - destruct (_ || _); [|subst c'; repeat split; assumption]. destruct M as (w & M & _). unfold chan_read in M. rewrite O in M. injection M as <- _. repeat split; assumption.
  - cbn [word_to] in W, WD. destruct (q mod 256 =? 10); [discriminate WD|].
    change (10 + 1) with 11 in M. destruct (q mod 256 =? 11); [|subst c'; repeat split; assumption].
    specialize (W u eq_refl). unfold mode_word in W. rewrite control_cases, W in M. destruct (u mod 2 =? 0); [injection M as <-; repeat split; cbn; assumption|].
    destruct (u mod 16 =? 7); [discriminate M|]. destruct (u mod 16 =? 3); [destruct (Z.testbit u 7); [destruct (ch_ints c)|]|]; injection M as <-; repeat split; cbn; assumption.
  - destruct M as [->|(_ & -> & _)]; repeat split; cbn; assumption.
  - subst c'. repeat split; assumption.
Qed.
Lemma pends_ops v r ops : forall (p p' : P0) l, dev_ops pd ops p = Some (p', l) ->
  Forall (fun o => is_reset o = false /\ word_to 10 o = None /\ (forall v, word_to 11 o = Some v -> mode_word v = false) /\ polls o = false) ops -> pends v r (pio_b p) -> pends v r (pio_b p').
Proof.
  induction ops as [|o ops IH]; intros p p' l E F Hw; cbn [dev_ops] in E; [now injection E as <- _|].
  destruct (dev_do pd o p) as [[p1 x]|] eqn:E1; [|discriminate E]. destruct (dev_ops pd ops p1) as [[p2 l2]|] eqn:E2; [|discriminate E]. injection E as <- _.
  inversion F as [|a b (F1 & F2 & F3 & F4) F5]; subst. refine (IH _ _ _ E2 F5 _). exact (pends_step _ _ _ _ _ _ (proj2 (do_moves _ _ _ _ _ _ _ E1)) F1 F2 F3 F4 Hw).
Qed.
Lemma retried q u t x (p0 p1 p2 p3 : P0) ops l v r y o2 : dev_do pd (BOut q u t) p0 = Some (p1, x) -> q mod 256 = 10 -> ch_output (pio_b p0) = true -> snd (ch_dev (pio_b p1)) = Some v ->
  dev_ops pd ops p1 = Some (p2, l) ->
  Forall (fun o => is_reset o = false /\ word_to 10 o = None /\ (forall v, word_to 11 o = Some v -> mode_word v = false) /\ polls o = false) ops ->
  flush v (fst (fst (ch_dev (pio_b p1)))) = (r, true) -> dev_do pd o2 p2 = Some (p3, y) -> (exists t, o2 = BFrame t \/ o2 = BIrq t /\ pio_ieo p2 = false /\ ch_int (pio_a p3) = false) ->
  ch_dev (pio_b p3) = (r, snd (fst (ch_dev (pio_b p1))) ++ [v], None).
Proof.
  intros E1 Q O1 PV E2 F FL E3 PO. pose proof (proj2 (do_moves _ _ _ _ _ _ _ E1)) as M1.
  assert (W1 : pends v (fst (ch_dev (pio_b p1))) (pio_b p1)).
  { cbn [moves] in M1. rewrite Q in M1. cbn [Z.eqb Pos.eqb] in M1. unfold chan_write_data in M1. rewrite O1 in M1. match type of M1 with (let (_, _) := ?e in _) = _ => destruct e as [c n] end.
    destruct (add32 t n); [|discriminate M1]. injection M1 as M1. split; [now rewrite <- M1|]. split; [now rewrite <- M1|]. rewrite <- PV. apply surjective_pairing. }
  pose proof (pends_ops _ _ _ _ _ _ E2 F W1) as (O & RD & DV).
  assert (C : pio_b p3 = fst (chan_check PB (op_time o2) (pio_b p2))).
  { destruct PO as (t2 & [->|(-> & IE & NA)]); [exact (proj2 (do_moves _ _ _ _ _ _ _ E3))|]. cbn [op_time dev_do ral_pio pio_dev dv_is_irq] in *. unfold pio_is_irq in E3. rewrite IE in E3.
    destruct (check_ints (pio_input slurp) t2 (pio_a p2)) as (_ & _ & _ & _ & _ & SA).
    destruct (chan_check _ t2 (pio_a p2)) as [a ia]. cbn [fst snd] in SA. destruct ia; [injection E3 as <- _; cbn [pio_a] in NA; congruence|].
    destruct (chan_check _ t2 (pio_b p2)) as [b ib]. destruct ib; [injection E3 as <- _; reflexivity|]. unfold map_next in E3. cbn [pio_a pio_b pio_ieo pio_next] in E3. destruct (dv_is_irq dv t2 (pio_next p2)) as [[d1 i]|]; [|discriminate E3]. injection E3 as <- _. reflexivity. }
  rewrite C. unfold chan_check. rewrite RD, O, DV. cbn [pd_strobe pio_output snd fst]. unfold taped_sink. rewrite FL. unfold chan_set_int. cbn [ch_ints]. destruct (ch_ints (pio_b p2)); reflexivity.
Qed.
End Retry.
