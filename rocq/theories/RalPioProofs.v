(** Proofs about the parallel port of the example computer. *)
From Coq Require Import ZArith Bool List Lia.
From Verif Require Import Base RalBus RalPio SpecPio.
Import ListNotations.
Open Scope Z_scope.
Ltac Zify.zify_post_hook ::= Z.div_mod_to_equations.

Lemma small_land p k : 0 <= k < 256 -> Z.land p k = Z.land (p mod 256) k.
Proof.
  intro H. replace k with (Z.land (Z.ones 8) k) at 1.
  2:{ rewrite Z.land_comm, Z.land_ones by lia. apply Z.mod_small. exact H. }
  rewrite Z.land_assoc, Z.land_ones by lia. reflexivity.
Qed.
Lemma sweep (f : Z -> bool) n : forallb f (map Z.of_nat (seq 0 n)) = true -> forall b, 0 <= b < Z.of_nat n -> f b = true.
Proof. intros H b Hb. eapply forallb_forall in H; [exact H|]. apply in_map_iff. exists (Z.to_nat b). split; [lia|]. apply in_seq. lia. Qed.
Lemma pio_ports p : (Z.land p PIO_MASK =? PIO_BITS) = ((p mod 256) / 4 =? 2) /\ (Z.land p PIO_CHANNEL =? 0) = Z.even ((p mod 256) / 2) /\
  (Z.land p PIO_CONTROL =? 0) = Z.even (p mod 256).
Proof.
  unfold PIO_MASK, PIO_BITS, PIO_CHANNEL, PIO_CONTROL. rewrite !(small_land p) by lia.
  assert (H : 0 <= p mod 256 < 256) by lia. revert H. generalize (p mod 256). intros b H.
  assert (C := sweep (fun b => eqb (Z.land b 0xFC =? 8) (b / 4 =? 2) && eqb (Z.land b 2 =? 0) (Z.even (b / 2)) && eqb (Z.land b 1 =? 0) (Z.even b)) 256 eq_refl b H).
  cbn beta in C. apply andb_prop in C as [C C3]. apply andb_prop in C as [C1 C2]. now rewrite (eqb_prop _ _ C1), (eqb_prop _ _ C2), (eqb_prop _ _ C3).
Qed.

(** What an event does to one channel, whose data port is [k]. *)
Definition moves {X} (pd : pdev X) (k : Z) (o : bop) (x : ans) (c c' : chan X) : Prop :=
  match o with
  | BReset t => c' = chan_reset pd t c
  | BFrame t => c' = fst (chan_check pd t c)
  | BM1 _ => c' = chan_m1 c
  | BIn p t => if (p mod 256 =? k) || (p mod 256 =? k + 1) then exists v, chan_read pd t c = Some (c', v) /\ x = AByte v else c' = c
  | BOut p v t => if p mod 256 =? k then chan_write_data pd v t c = Some c' else if p mod 256 =? k + 1 then chan_write_control pd v t c = Some c' else c' = c
  | BIrq t => c' = c \/ c' = fst (chan_check pd t c)
  | BAck _ _ => c' = c \/ ch_int c = true /\ c' = int_off c /\ x = AByte (ch_vec c)
  | _ => c' = c
  end.
Section Moves.
Context {S R D : Type} (slurp : S -> S * option Z) (flush : Z -> R -> R * bool) (dv : dev D).
Notation pd := (ral_pio slurp flush dv).
Notation PA := (pio_input slurp).
Notation PB := (pio_output flush).
Lemma opt_inv {A B} (f : A -> B) x y : option_map f x = Some y -> exists a, x = Some a /\ y = f a.
Proof. destruct x; [|discriminate]. intros [= <-]. eauto. Qed.
Ltac oi H := let a := fresh "w" in let E := fresh "E" in apply opt_inv in H as (a & E & H).
Lemma do_moves o p p' x : dev_do pd o p = Some (p', x) -> moves PA 8 o x (pio_a p) (pio_a p') /\ moves PB 10 o x (pio_b p) (pio_b p').
Proof.
  destruct o as [t|t|t|n|q t|q v t|t|pc t|pc t]; cbn [dev_do pd ral_pio pio_dev dv_reset dv_frame_end dv_m1 dv_next_second dv_read_io dv_write_io dv_is_irq dv_irq_data dv_reti moves]; intro H; oi H; injection H as -> ->.
  1,2,3,4: unfold pio_reset, pio_frame_end, pio_m1, pio_next_second, then_next in E; oi E; subst w; split; reflexivity.
  - unfold pio_read_io in E. destruct (pio_ports q) as (P1 & P2 & P3). rewrite P1, P2 in E.
    destruct (Z.eqb_spec (q mod 256 / 4) 2) as [Q|Q].
    + oi E. subst w. cbn [fst snd]. destruct (Z.even (q mod 256 / 2)) eqn:V; unfold map_a, map_b in E0; oi E0; subst w0; cbn [fst snd pio_a pio_b].
      * assert (q mod 256 / 2 mod 2 = 0) by (rewrite Zmod_even, V; reflexivity).
        replace ((q mod 256 =? 8) || (q mod 256 =? 8 + 1)) with true by lia. replace ((q mod 256 =? 10) || (q mod 256 =? 10 + 1)) with false by lia.
        destruct w as [c v]. split; [|reflexivity]. exists v. split; [exact E|reflexivity].
      * assert (q mod 256 / 2 mod 2 = 1) by (rewrite Zmod_even, V; reflexivity).
        replace ((q mod 256 =? 8) || (q mod 256 =? 8 + 1)) with false by lia. replace ((q mod 256 =? 10) || (q mod 256 =? 10 + 1)) with true by lia.
        destruct w as [c v]. split; [reflexivity|]. exists v. split; [exact E|reflexivity].
    + unfold map_next in E. oi E. subst w. cbn [fst snd pio_a pio_b].
      replace ((q mod 256 =? 8) || (q mod 256 =? 8 + 1)) with false by lia. replace ((q mod 256 =? 10) || (q mod 256 =? 10 + 1)) with false by lia. split; reflexivity.
  - unfold pio_write_io in E. destruct (pio_ports q) as (P1 & P2 & P3). rewrite P1, P2, P3 in E.
    destruct (Z.eqb_spec (q mod 256 / 4) 2) as [Q|Q].
    + oi E. subst w. cbn [fst snd].
      destruct (Z.even (q mod 256)) eqn:U; [assert (q mod 256 mod 2 = 0) by (rewrite Zmod_even, U; reflexivity)|assert (q mod 256 mod 2 = 1) by (rewrite Zmod_even, U; reflexivity)];
      (destruct (Z.even (q mod 256 / 2)) eqn:V; [assert (q mod 256 / 2 mod 2 = 0) by (rewrite Zmod_even, V; reflexivity)|assert (q mod 256 / 2 mod 2 = 1) by (rewrite Zmod_even, V; reflexivity)]);
      unfold map_a, map_b in E0; oi E0; subst w0; unfold unit_ in E; oi E; subst w; cbn [fst snd pio_a pio_b].
      * replace (q mod 256) with 8 by lia. split; [exact E0|reflexivity].
      * replace (q mod 256) with 10 by lia. split; [reflexivity|exact E0].
      * replace (q mod 256) with 9 by lia. split; [exact E0|reflexivity].
      * replace (q mod 256) with 11 by lia. split; [reflexivity|exact E0].
    + unfold map_next in E. oi E. subst w. cbn [fst snd pio_a pio_b].
      destruct (Z.eqb_spec (q mod 256) 8); [lia|]. destruct (Z.eqb_spec (q mod 256) (8 + 1)); [lia|].
      destruct (Z.eqb_spec (q mod 256) 10); [lia|]. destruct (Z.eqb_spec (q mod 256) (10 + 1)); [lia|]. split; reflexivity.
  - unfold pio_is_irq in E. destruct (pio_ieo p); [injection E as <-; cbn [fst]; auto|].
    destruct (chan_check PA t (pio_a p)) as [a ia]. destruct ia; [injection E as <-; cbn [fst pio_a pio_b]; auto|].
    destruct (chan_check PB t (pio_b p)) as [b ib]. destruct ib; [injection E as <-; cbn [fst pio_a pio_b]; auto|].
    unfold map_next in E. oi E. subst w. cbn [fst pio_a pio_b]. auto.
  - unfold pio_irq_data in E. destruct (ch_int (pio_a p)) eqn:IA; [injection E as <-; cbn [fst snd pio_a pio_b]; auto|].
    destruct (ch_int (pio_b p)) eqn:IB; [injection E as <-; cbn [fst snd pio_a pio_b]; auto|].
    unfold map_next in E. oi E. subst w. cbn [fst pio_a pio_b]. auto.
  - unfold pio_reti in E. destruct (pio_ieo p); [injection E as <-; cbn [fst pio_a pio_b]; auto|].
    unfold map_next in E. oi E. subst w. cbn [fst pio_a pio_b]. auto.
Qed.
End Moves.

Lemma land15 v : Z.land v 15 = v mod 16.
Proof. change 15 with (Z.ones 4). now rewrite Z.land_ones by lia. Qed.
Lemma land1 v : Z.land v 1 = v mod 2.
Proof. change 1 with (Z.ones 1) at 1. now rewrite Z.land_ones by lia. Qed.
Lemma shift6 v : Z.shiftr v 6 = v / 64.
Proof. now rewrite Z.shiftr_div_pow2 by lia. Qed.
Lemma bit7 v : 0 <= v < 256 -> Z.testbit v 7 = (128 <=? v).
Proof. intro H. rewrite Z.testbit_eqb by lia. change (2 ^ 7) with 128. destruct (Z.leb_spec 128 v); lia. Qed.
(** Control words by their meaning. *)
Lemma control_cases {X} (pd : pdev X) v t c : chan_write_control pd v t c =
  if v mod 2 =? 0 then Some (mkChan (ch_output c) (ch_want c) (ch_ints c) (ch_int c) (ch_ready c) (ch_in c) (ch_out c) v (ch_dev c))
  else if v mod 16 =? 15 then
    if v / 64 =? 0 then Some (mkChan true (ch_want c) (ch_ints c) (ch_int c) false (ch_in c) (ch_out c) (ch_vec c) (pd_bus_data pd (ch_out c) t (ch_dev c)))
    else if v / 64 =? 1 then Some (mkChan false (ch_want c) (ch_ints c) (ch_int c) true (ch_in c) (ch_out c) (ch_vec c) (pd_floating pd t (ch_dev c)))
    else None
  else if v mod 16 =? 7 then None
  else if v mod 16 =? 3 then
    if Z.testbit v 7 then Some (if ch_ints c then c else mkChan (ch_output c) true (ch_ints c) (ch_int c) (ch_ready c) (ch_in c) (ch_out c) (ch_vec c) (ch_dev c))
    else Some (mkChan (ch_output c) false false false (ch_ready c) (ch_in c) (ch_out c) (ch_vec c) (ch_dev c))
  else Some c.
Proof.
  unfold chan_write_control. rewrite land1, land15, shift6. destruct (v mod 2 =? 0); [reflexivity|].
  assert (H : 0 <= v mod 16 < 16) by lia. revert H. generalize (v mod 16). intros k H.
  assert (K : k = 15 \/ k = 7 \/ k = 3 \/ k <> 15 /\ k <> 7 /\ k <> 3) by lia. destruct K as [->|[->|[->|(K1 & K2 & K3)]]].
  - cbn [Z.eqb Pos.eqb]. destruct (Z.eqb_spec (v / 64) 0) as [->|]; [reflexivity|]. destruct (Z.eqb_spec (v / 64) 1) as [->|]; [reflexivity|].
    destruct (v / 64) as [|q|]; try lia; try reflexivity. destruct q; try lia; reflexivity.
  - reflexivity.
  - reflexivity.
  - destruct (Z.eqb_spec k 15); [lia|]. destruct (Z.eqb_spec k 7); [lia|]. destruct (Z.eqb_spec k 3); [lia|].
    destruct k as [|[[[[]|[]|]|[[]|[]|]|]|[[[]|[]|]|[[]|[]|]|]|]|]; try lia; reflexivity.
Qed.

Section Input.
Context {S X : Type} (slurp : S -> S * option Z).
Notation PA := (pio_input (taped slurp)).
Notation tape c := (snd (fst (ch_dev c))).
Definition reads1 (o : bop) (x : ans) : list Z := a_reads [(o, x)].
Lemma check_in t c : ch_output c = false -> let c' := fst (chan_check PA t c) in ch_output c' = false /\
  (tape c' = tape c /\ ch_in c' = ch_in c /\ ch_ready c' = ch_ready c \/
   exists b, tape c' = tape c ++ [b] /\ ch_in c' = b /\ ch_ready c = true /\ ch_ready c' = false).
Proof.
  intro O. unfold chan_check. rewrite O. destruct (ch_ready c) eqn:RD.
  2:{ cbn [fst]. rewrite O, RD. auto. }
  cbn [pd_sample pio_input]. destruct (snd (ch_dev c)).
  2:{ cbn. auto. }
  unfold taped. destruct (slurp (fst (fst (ch_dev c)))) as [s [v|]].
  - cbn [fst snd]. unfold chan_set_int. cbn [ch_ints]. destruct (ch_ints c); cbn [fst snd ch_output ch_dev ch_in ch_ready]; split; [reflexivity| |reflexivity|];
      right; exists (u8 v); auto.
  - cbn. auto.
Qed.
Lemma input_step o x c c' : moves PA 8 o x c c' -> ch_output c = false -> is_reset o = false ->
  (forall v, word_to 9 o = Some v -> mode_word v = false) -> ch_output c' = false /\
  (tape c' = tape c /\ ch_in c' = ch_in c /\ (reads1 o x = [] /\ ch_ready c' = ch_ready c \/ reads1 o x = [ch_in c] /\ ch_ready c' = true) \/
   exists b, tape c' = tape c ++ [b] /\ ch_in c' = b /\ ch_ready c = true /\ ch_ready c' = false /\ reads1 o x = []).
Proof.
  intros M O R W. unfold reads1. destruct o as [t|t|t|n|q t|q v t|t|pc t|pc t]; cbn [moves a_reads flat_map app] in *; try discriminate.
  - destruct (check_in t c O) as [O' [(E1 & E2 & E3)|(b & E1 & E2 & E3 & E4)]]; rewrite <- M in *; (split; [exact O'|]); [left; auto 10|right; exists b; auto 10].
  - rewrite M. unfold chan_m1. destruct (ch_want c); cbn; auto 10.
  - rewrite M. auto 10.
  - destruct ((q mod 256 =? 8) || (q mod 256 =? 8 + 1)) eqn:Q.
    + destruct M as (v & E & ->). rewrite (Q : (q mod 256 =? 8) || (q mod 256 =? 9) = true). unfold chan_read in E. rewrite O in E.
      apply opt_inv in E as (t' & _ & E). injection E as -> ->. cbn [ch_output ch_dev ch_in ch_ready pd_ready pio_input fst snd app]. auto 10.
    + subst c'. destruct x; try (now auto 10). rewrite (Q : (q mod 256 =? 8) || (q mod 256 =? 9) = false). auto 10.
  - cbn [word_to] in W. destruct (q mod 256 =? 8).
    + unfold chan_write_data in M. rewrite O in M. injection M as <-. cbn. auto 10.
    + change (8 + 1) with 9 in M. destruct (q mod 256 =? 9).
      * specialize (W v eq_refl). rewrite control_cases in M. unfold mode_word in W. rewrite W in M.
        destruct (v mod 2 =? 0); [injection M as <-; cbn; auto 10|]. destruct (v mod 16 =? 7); [discriminate|].
        destruct (v mod 16 =? 3); [|injection M as <-; auto 10]. destruct (Z.testbit v 7); [|injection M as <-; cbn; auto 10].
        destruct (ch_ints c); injection M as <-; cbn; auto 10.
      * subst c'. auto 10.
  - destruct M as [->|M]; [auto 10|]. destruct (check_in t c O) as [O' [(E1 & E2 & E3)|(b & E1 & E2 & E3 & E4)]]; rewrite <- M in *; (split; [exact O'|]); [left; auto 10|right; exists b; auto 10].
  - destruct M as [->|(_ & -> & _)]; cbn; destruct x; auto 10.
  - rewrite M. auto 10.
Qed.
End Input.
Section InputRun.
Context {S R D : Type} (slurp : S -> S * option Z) (flush : Z -> R -> R * bool) (dv : dev D).
Notation pd := (ral_pio (taped slurp) flush dv).
Notation tape p := (snd (fst (ch_dev (pio_a p)))).
Lemma a_reads_cons o x l : a_reads ((o, x) :: l) = reads1 o x ++ a_reads l.
Proof. unfold reads1, a_reads. cbn [flat_map]. now rewrite app_nil_r. Qed.
Lemma input_run ops : forall p p' l, dev_ops pd ops p = Some (p', l) -> ch_output (pio_a p) = false ->
  Forall (fun o => is_reset o = false /\ forall v, word_to 9 o = Some v -> mode_word v = false) ops ->
  exists sent n ns, tape p' = tape p ++ sent /\ length ns = length sent /\ Forall (fun k => 1 <= k)%nat (removelast ns) /\
    a_reads l = repeat (ch_in (pio_a p)) n ++ concat (map (fun x => repeat (fst x) (snd x)) (combine sent ns)) /\
    (ch_ready (pio_a p) = false -> sent <> [] -> (1 <= n)%nat).
Proof.
  induction ops as [|o ops IH]; intros p p' l E O F; cbn [dev_ops] in E.
  - injection E as <- <-. exists [], 0%nat, []. split; [now rewrite app_nil_r|]. split; [reflexivity|]. split; [constructor|]. split; [reflexivity|]. intros _ H. now elim H.
  - destruct (dev_do pd o p) as [[p1 x]|] eqn:E1; [|discriminate]. apply opt_inv in E as ([p2 l'] & E2 & E). injection E as -> ->.
    apply do_moves in E1 as [MA _]. inversion_clear F as [|? ? [F1 F2] F3].
    destruct (input_step slurp o x _ _ MA O F1 F2) as (O' & ST). destruct (IH p1 p2 l' E2 O' F3) as (sent & n & ns & T & L & NS & RD & RY).
    cbn [fst snd]. rewrite a_reads_cons. destruct ST as [(T1 & I1 & [(R1 & Y1)|(R1 & Y1)])|(b & T1 & I1 & Y1 & Y2 & R1)].
    + exists sent, n, ns. rewrite R1. cbn [app]. rewrite <- I1, <- Y1, <- T1. auto 6.
    + exists sent, (Datatypes.S n), ns. rewrite R1. cbn [app repeat]. rewrite <- T1, RD, I1. repeat split; auto. intros _ _. lia.
    + exists (b :: sent), 0%nat, (n :: ns). rewrite R1. cbn [app repeat combine map concat fst snd length]. rewrite T, T1, <- app_assoc, RD, I1. repeat split; auto.
      * destruct ns as [|n' ns]; [constructor|]. constructor; [|exact NS]. apply RY; [exact Y2|]. intros ->. discriminate.
      * congruence.
Qed.
End InputRun.

Section Output.
Context {R : Type} (flush : Z -> R -> R * bool).
Notation PB := (pio_output (taped_sink flush)).
Notation tape c := (snd (fst (ch_dev c))).
Notation pend c := (snd (ch_dev c)).
Lemma check_out t c : ch_output c = true -> let c' := fst (chan_check PB t c) in ch_output c' = true /\ ch_vec c' = ch_vec c /\
  (c' = c \/
   ch_ready c = true /\ ch_ready c' = false /\ pend c' = None /\ tape c' = tape c ++ held (pend c) \/
   ch_ready c = true /\ ch_ready c' = true /\ ch_int c' = ch_int c /\ pend c' = pend c /\ tape c' = tape c /\ exists v r, pend c = Some v /\ snd (flush v r) = false).
Proof.
  intro O. unfold chan_check. rewrite O. destruct (ch_ready c) eqn:RD; [|cbn [fst]; auto].
  cbn [pd_strobe pio_output]. destruct (pend c) as [v|] eqn:P.
  - unfold taped_sink. destruct (flush v (fst (fst (ch_dev c)))) as [r ok] eqn:E. destruct ok.
    + unfold chan_set_int. cbn [ch_ints held]. destruct (ch_ints c); cbn; auto 12.
    + cbn. split; [reflexivity|]. split; [reflexivity|]. right. right. repeat split; auto. exists v, (fst (fst (ch_dev c))). now rewrite E.
  - unfold chan_set_int. cbn [ch_ints held]. rewrite app_nil_r. destruct (ch_ints c); cbn; auto 12.
Qed.
(** Steps of the output channel without control words. *)
Lemma output_step o x c c' : moves PB 10 o x c c' -> ch_output c = true -> plain o -> ch_output c' = true /\ ch_vec c' = ch_vec c /\
  match word_to 10 o with
  | Some v => ch_ready c' = true /\
      (ch_ready c = false -> ch_int c' = ch_int c /\
        (pend c' = pend c /\ tape c' = tape c ++ [v] \/ pend c' = Some v /\ tape c' = tape c /\ exists r, snd (flush v r) = false)) /\
      ((forall v r, snd (flush v r) = true) -> pend c' = None /\ tape c' = tape c ++ held (pend c) ++ [v] \/ pend c' = pend c /\ tape c' = tape c ++ [v])
  | None =>
      c' = c \/ pend c' = pend c /\ tape c' = tape c /\ ch_ready c' = ch_ready c /\ (ch_int c' = true -> ch_int c = true) \/
      ch_ready c = true /\ ch_ready c' = false /\ pend c' = None /\ tape c' = tape c ++ held (pend c)
  end.
Proof.
  intros M O (NR & N9 & N11).
  assert (C : forall t, c' = fst (chan_check PB t c) -> ch_output c' = true /\ ch_vec c' = ch_vec c /\
     (c' = c \/ pend c' = pend c /\ tape c' = tape c /\ ch_ready c' = ch_ready c /\ (ch_int c' = true -> ch_int c = true) \/
      ch_ready c = true /\ ch_ready c' = false /\ pend c' = None /\ tape c' = tape c ++ held (pend c))).
  { intros t E. destruct (check_out t c O) as (O' & V & CS). rewrite <- E in *. split; [exact O'|]. split; [exact V|].
    destruct CS as [->|[(A1 & A2 & A3 & A4)|(A1 & A2 & A3 & A4 & A5 & _)]]; auto 8. right. left. rewrite A3. repeat split; auto. congruence. }
  destruct o as [t|t|t|n|q t|q v t|t|pc t|pc t]; cbn [moves word_to] in *; try discriminate.
  - exact (C t M).
  - rewrite M. unfold chan_m1. destruct (ch_want c); cbn; auto 10.
  - rewrite M. auto.
  - destruct ((q mod 256 =? 10) || (q mod 256 =? 10 + 1)).
    + destruct M as (v & E & _). unfold chan_read in E. rewrite O in E. injection E as <- _. auto.
    + subst c'. auto.
  - destruct (q mod 256 =? 10).
    + unfold chan_write_data in M. rewrite O in M. destruct (ch_ready c) eqn:RD.
      * cbn [pd_strobe pio_output] in M. destruct (pend c) as [u|] eqn:P.
        -- unfold taped_sink at 1 in M. destruct (flush u (fst (fst (ch_dev c)))) as [r1 ok1] eqn:E1. destruct ok1.
           ++ unfold chan_set_int in M. cbn [ch_ints] in M. destruct (ch_ints c); apply opt_inv in M as (t' & _ & ->);
                cbn [ch_output ch_vec ch_ready ch_int ch_dev pd_with_data pio_output fst snd]; unfold taped_sink; cbn [fst snd]; destruct (flush v r1) as [r2 ok2] eqn:E2;
                (split; [reflexivity|]); (split; [reflexivity|]); (split; [reflexivity|]); (split; [discriminate|]); intro W; specialize (W v r1); rewrite E2 in W; cbn [snd] in W; subst ok2;
                cbn [fst snd held]; left; rewrite <- app_assoc; auto.
           ++ apply opt_inv in M as (t' & _ & ->). cbn [ch_output ch_vec ch_ready ch_int ch_dev pd_with_data pio_output fst snd]. split; [reflexivity|]. split; [reflexivity|].
              split; [reflexivity|]. split; [discriminate|]. intro W. specialize (W u (fst (fst (ch_dev c)))). rewrite E1 in W. discriminate.
        -- unfold chan_set_int in M. cbn [ch_ints] in M. destruct (ch_ints c); apply opt_inv in M as (t' & _ & ->);
             cbn [ch_output ch_vec ch_ready ch_int ch_dev pd_with_data pio_output fst snd]; unfold taped_sink; cbn [fst snd]; destruct (flush v (fst (fst (ch_dev c)))) as [r2 ok2] eqn:E2;
             (split; [reflexivity|]); (split; [reflexivity|]); (split; [reflexivity|]); (split; [discriminate|]); intro W; specialize (W v (fst (fst (ch_dev c)))); rewrite E2 in W; cbn [snd] in W; subst ok2;
             cbn [fst snd held app]; rewrite P; auto.
      * apply opt_inv in M as (t' & _ & ->). cbn [ch_output ch_vec ch_ready ch_int ch_dev pd_with_data pio_output fst snd]. unfold taped_sink. cbn [fst snd].
        destruct (flush v (fst (fst (ch_dev c)))) as [r2 ok2] eqn:E2. split; [reflexivity|]. split; [reflexivity|]. split; [reflexivity|]. split.
        -- intros _. split; [reflexivity|]. destruct ok2; cbn [fst snd]; [left; auto|right]. split; [reflexivity|]. split; [reflexivity|]. exists (fst (fst (ch_dev c))). now rewrite E2.
        -- intro W. specialize (W v (fst (fst (ch_dev c)))). rewrite E2 in W. cbn [snd] in W. subst ok2. cbn [fst snd]. auto.
    + change (10 + 1) with 11 in M. destruct (q mod 256 =? 11); [discriminate|]. subst c'. auto.
  - destruct M as [->|M]; [auto|exact (C t M)].
  - destruct M as [->|(I & -> & _)]; [auto|]. cbn. auto 12.
  - rewrite M. auto.
Qed.
End Output.
Section OutputRun.
Context {S R D : Type} (slurp : S -> S * option Z) (flush : Z -> R -> R * bool) (dv : dev D).
Notation pd := (ral_pio slurp (taped_sink flush) dv).
Notation tape p := (snd (fst (ch_dev (pio_b p)))).
Notation pend p := (snd (ch_dev (pio_b p))).
Lemma ack_cases {B0} (pb : pdev B0) m b1 c1 k1 pc t (p : pio (S * bool) B0 D) p' x :
  dev_do (pio_dev (pio_input slurp) pb dv m b1 c1 k1) (BAck pc t) p = Some (p', x) ->
  if ch_int (pio_a p) then p' = mkPio (int_off (pio_a p)) (pio_b p) true (pio_next p) /\ x = AByte (ch_vec (pio_a p))
  else if ch_int (pio_b p) then p' = mkPio (pio_a p) (int_off (pio_b p)) true (pio_next p) /\ x = AByte (ch_vec (pio_b p))
  else exists d y, dv_irq_data dv pc t (pio_next p) = Some (d, y) /\ p' = mkPio (pio_a p) (pio_b p) (pio_ieo p) d /\ x = AByte (fst y).
Proof.
  cbn [dev_do pio_dev dv_irq_data]. unfold pio_irq_data. intro H. apply opt_inv in H as (w & E & H). injection H as -> ->.
  destruct (ch_int (pio_a p)); [injection E as <-; auto|]. destruct (ch_int (pio_b p)); [injection E as <-; auto|].
  apply opt_inv in E as ([d y] & E & ->). exists d, y. auto.
Qed.
Lemma vec_a o x (c c' : chan (S * bool)) : moves (pio_input slurp) 8 o x c c' -> plain o -> ch_vec c' = ch_vec c.
Proof.
  intros M (NR & N9 & N11).
  assert (C : forall t, ch_vec (fst (chan_check (pio_input slurp) t c)) = ch_vec c).
  { intro t. unfold chan_check, chan_set_int. destruct (ch_ready c); [|reflexivity]. destruct (ch_output c).
    - destruct (pd_strobe _ _ _) as [y ok]. destruct ok; cbn [ch_ints fst]; [destruct (ch_ints c)|]; reflexivity.
    - destruct (pd_sample _ _ _) as [y [v|]]; cbn [ch_ints fst]; [destruct (ch_ints c)|]; reflexivity. }
  destruct o as [t|t|t|n|q t|q v t|t|pc t|pc t]; cbn [moves word_to] in *; try discriminate.
  - rewrite M. apply C.
  - rewrite M. unfold chan_m1. now destruct (ch_want c).
  - now rewrite M.
  - destruct (_ || _); [|now subst]. destruct M as (v & E & _). unfold chan_read in E. destruct (ch_output c); [now injection E as <- _|].
    apply opt_inv in E as (t' & _ & E). now injection E as -> _.
  - destruct (q mod 256 =? 8).
    + unfold chan_write_data in M. destruct (ch_output c); [|now injection M as <-]. destruct (ch_ready c); [|apply opt_inv in M as (t' & _ & ->); reflexivity].
      cbn [pd_strobe pio_input] in M. apply opt_inv in M as (t' & _ & ->). reflexivity.
    + change (8 + 1) with 9 in M. destruct (q mod 256 =? 9); [discriminate|]. now subst.
  - destruct M as [->| ->]; [reflexivity|apply C].
  - now destruct M as [->|(_ & -> & _)].
  - now rewrite M.
Qed.
Lemma output_paced va vb ops : va <> vb -> (forall pc t d d' y, dv_irq_data dv pc t d = Some (d', y) -> fst y <> vb) ->
  forall g p p' l, dev_ops pd ops p = Some (p', l) -> Forall plain ops -> paced vb g l ->
  ch_output (pio_b p) = true -> ch_vec (pio_a p) = va -> ch_vec (pio_b p) = vb ->
  (ch_ready (pio_b p) = false -> pend p = None) -> (g = true \/ ch_int (pio_b p) = true -> ch_ready (pio_b p) = false) -> ~ (g = true /\ ch_int (pio_b p) = true) ->
  exists sent, tape p' = tape p ++ sent /\ held (pend p) ++ b_writes ops = sent ++ held (pend p').
Proof.
  intros VV VC. induction ops as [|o ops IH]; intros g p p' l E F P O VA VB I1 I2 I3; cbn [dev_ops] in E.
  - injection E as <- <-. exists []. now rewrite !app_nil_r.
  - destruct (dev_do pd o p) as [[p1 x]|] eqn:E1; [|discriminate]. apply opt_inv in E as ([p2 l'] & E2 & E). injection E as -> ->.
    assert (MV := do_moves _ _ _ _ _ _ _ E1). destruct MV as [MA MB]. inversion_clear F as [|? ? F1 F2]. cbn [fst snd paced] in *.
    assert (VA1 := vec_a _ _ _ _ MA F1). rewrite VA in VA1. destruct (output_step flush _ _ _ _ MB O F1) as (O1 & VB1 & ST). rewrite VB in VB1.
    cbn [b_writes flat_map]. fold (b_writes ops). destruct (word_to 10 o) as [v|] eqn:W.
    + destruct P as [-> P]. assert (RF := I2 (or_introl eq_refl)). destruct ST as (R1 & ST & _). destruct (ST RF) as [IC ST'].
      assert (IF : ch_int (pio_b p) = false) by (destruct (ch_int (pio_b p)); [now elim I3|reflexivity]).
      destruct (IH false p1 p2 l' E2 F2 P O1 VA1 VB1) as (sent & T & W2).
      * congruence.
      * intros [?|?]; congruence.
      * intros [? _]. discriminate.
      * rewrite (I1 RF) in *. destruct ST' as [[P1 T1]|(P1 & T1 & _)]; rewrite P1, T1 in *.
        -- exists (v :: sent). rewrite T, <- app_assoc. cbn [held app] in *. now rewrite <- W2.
        -- exists sent. cbn [held app] in *. auto.
    + destruct (IH (match o, x with BAck _ _, AByte u => g || (u =? vb) | _, _ => g end) p1 p2 l' E2 F2) as (sent & T & W2); auto.
      * destruct o; try exact P. destruct x; exact P.
      * destruct ST as [->|[(P1 & T1 & R1 & C1)|(R1 & R2 & P1 & T1)]]; auto. rewrite P1, R1. auto.
      * destruct ST as [EQ|[(P1 & T1 & R1 & C1)|(R1 & R2 & P1 & T1)]]; [rewrite EQ|rewrite R1|auto].
        -- intros [G|G]; [|auto]. destruct o; auto. destruct x; auto. apply orb_prop in G as [G|G]; [auto|]. apply Z.eqb_eq in G. subst v.
           assert (K := ack_cases _ _ _ _ _ _ _ _ _ _ E1). destruct (ch_int (pio_a p)); [destruct K as [_ K]; congruence|].
           destruct (ch_int (pio_b p)); [auto|]. destruct K as (d & y & K1 & _ & K2). injection K2 as K2. elim (VC _ _ _ _ _ K1). now rewrite <- K2.
        -- intros [G|G]; [|auto]. destruct o; auto. destruct x; auto. apply orb_prop in G as [G|G]; [auto|]. apply Z.eqb_eq in G. subst v.
           assert (K := ack_cases _ _ _ _ _ _ _ _ _ _ E1). destruct (ch_int (pio_a p)); [destruct K as [_ K]; congruence|].
           destruct (ch_int (pio_b p)); [auto|]. destruct K as (d & y & K1 & _ & K2). injection K2 as K2. elim (VC _ _ _ _ _ K1). now rewrite <- K2.
      * intros [G G']. destruct (ch_ready (pio_b p)) eqn:RD.
        -- assert (g = false) as -> by (destruct g; [specialize (I2 (or_introl eq_refl)); congruence|reflexivity]).
           assert (IF : ch_int (pio_b p) = false) by (destruct (ch_int (pio_b p)); [specialize (I2 (or_intror eq_refl)); congruence|reflexivity]).
           destruct o; try discriminate. destruct x; try discriminate. cbn [orb] in G. apply Z.eqb_eq in G. subst v.
           assert (K := ack_cases _ _ _ _ _ _ _ _ _ _ E1). destruct (ch_int (pio_a p)); [destruct K as [_ K]; congruence|]. rewrite IF in K.
           destruct K as (d & y & K1 & _ & K2). injection K2 as K2. elim (VC _ _ _ _ _ K1). now rewrite <- K2.
        -- destruct ST as [EQ|[(P1 & T1 & R1 & C1)|(R1 & R2 & P1 & T1)]]; [|specialize (C1 G')|discriminate].
           ++ rewrite EQ in G'. destruct o; try (now auto). destruct x; try (now auto). apply orb_prop in G as [G|G]; [auto|]. apply Z.eqb_eq in G. subst v.
              assert (K := ack_cases _ _ _ _ _ _ _ _ _ _ E1). destruct (ch_int (pio_a p)); [destruct K as [_ K]; congruence|]. rewrite G' in K. destruct K as [-> _].
              cbn [pio_b] in EQ. rewrite <- EQ in G'. discriminate.
           ++ destruct o; try (now auto). destruct x; try (now auto). apply orb_prop in G as [G|G]; [auto|]. apply Z.eqb_eq in G. subst v.
              assert (K := ack_cases _ _ _ _ _ _ _ _ _ _ E1). destruct (ch_int (pio_a p)); [destruct K as [_ K]; congruence|]. rewrite C1 in K. destruct K as [-> _].
              cbn [pio_b] in G'. discriminate.
      * destruct ST as [EQ|[(P1 & T1 & R1 & C1)|(R1 & R2 & P1 & T1)]]; [rewrite EQ in *; eauto|rewrite P1, T1 in *; eauto|].
        exists (held (pend p) ++ sent). rewrite P1 in W2. cbn [held app] in W2. cbn [app]. rewrite W2, T, T1, !app_assoc. auto.
Qed.
Lemma output_willing ops : (forall v r, snd (flush v r) = true) -> forall p p' l, dev_ops pd ops p = Some (p', l) -> Forall plain ops ->
  ch_output (pio_b p) = true -> pend p = None -> tape p' = tape p ++ b_writes ops /\ pend p' = None.
Proof.
  intro WL. induction ops as [|o ops IH]; intros p p' l E F O PN; cbn [dev_ops] in E.
  - injection E as <- <-. cbn. now rewrite app_nil_r.
  - destruct (dev_do pd o p) as [[p1 x]|] eqn:E1; [|discriminate]. apply opt_inv in E as ([p2 l'] & E2 & E). injection E as -> ->.
    apply do_moves in E1 as [_ MB]. inversion_clear F as [|? ? F1 F2]. cbn [fst]. destruct (output_step flush _ _ _ _ MB O F1) as (O1 & _ & ST).
    cbn [b_writes flat_map]. fold (b_writes ops). rewrite PN in ST. cbn [held app] in ST.
    assert (N : pend p1 = None /\ tape p1 = tape p ++ match word_to 10 o with Some v => [v] | None => [] end).
    { destruct (word_to 10 o) as [v|]. - destruct ST as (_ & _ & ST). now destruct (ST WL).
      - rewrite app_nil_r in *. destruct ST as [->|[(P1 & T1 & _)|(_ & _ & P1 & T1)]]; auto. }
    destruct N as [N1 N2]. destruct (IH p1 p2 l' E2 F2 O1 N1) as [T P]. rewrite T, N2, <- app_assoc. auto.
Qed.
End OutputRun.

Section Requests.
Context {X : Type} (pd : pdev X) (k : Z).
Lemma check_ints t c : let c' := fst (chan_check pd t c) in ch_ints c' = ch_ints c /\ ch_want c' = ch_want c /\ ch_vec c' = ch_vec c /\
  (ch_int c = true -> ch_int c' = true) /\ (ch_ints c = false -> ch_int c' = ch_int c) /\ snd (chan_check pd t c) = ch_int c'.
Proof.
  cbn zeta. split; [|split; [|split; [|split; [|split; [|reflexivity]]]]]; unfold chan_check, chan_set_int; (destruct (ch_ready c); [|tauto || reflexivity]); (destruct (ch_output c);
    [destruct (pd_strobe _ _ _) as [y ok]; destruct ok|destruct (pd_sample _ _ _) as [y [v|]]]); cbn [ch_ints fst]; try (destruct (ch_ints c) eqn:I); cbn [ch_ints ch_want ch_vec ch_int fst]; congruence || (intros; reflexivity || assumption).
Qed.
Lemma data_ints v t c c' : chan_write_data pd v t c = Some c' -> ch_ints c' = ch_ints c /\ ch_want c' = ch_want c /\ ch_vec c' = ch_vec c /\
  (ch_int c = true -> ch_int c' = true) /\ (ch_ints c = false -> ch_int c' = ch_int c).
Proof.
  unfold chan_write_data, chan_set_int. destruct (ch_output c); [|intros [= <-]; cbn; tauto]. destruct (ch_ready c).
  - destruct (pd_strobe _ _ _) as [y ok]. destruct ok; cbn [ch_ints]; [destruct (ch_ints c) eqn:I|]; intro H; apply opt_inv in H as (t' & _ & ->); cbn; rewrite ?I; intuition congruence.
  - intro H. apply opt_inv in H as (t' & _ & ->). cbn. tauto.
Qed.
Lemma read_ints t c c' v : chan_read pd t c = Some (c', v) -> ch_ints c' = ch_ints c /\ ch_want c' = ch_want c /\ ch_vec c' = ch_vec c /\ ch_int c' = ch_int c.
Proof. unfold chan_read. destruct (ch_output c); [intros [= <- _]; auto|]. intro H. apply opt_inv in H as (t' & _ & H). injection H as -> _. auto. Qed.
Lemma control_ints v t c c' : 0 <= v < 256 -> chan_write_control pd v t c = Some c' ->
  (enables v /\ ch_ints c' = ch_ints c /\ (ch_ints c = true \/ ch_want c' = true) /\ ch_int c' = ch_int c /\ ch_vec c' = ch_vec c) \/
  (disables v /\ ch_ints c' = false /\ ch_want c' = false /\ ch_int c' = false /\ ch_vec c' = ch_vec c) \/
  (~ enables v /\ ~ disables v /\ ch_ints c' = ch_ints c /\ ch_want c' = ch_want c /\ ch_int c' = ch_int c /\ (vector_word v = false -> ch_vec c' = ch_vec c)).
Proof.
  intros HV. rewrite control_cases, (bit7 v HV). unfold enables, disables, vector_word. destruct (Z.eqb_spec (v mod 2) 0) as [H|H].
  { intros [= <-]. right. right. cbn. repeat split; auto; try lia. }
  destruct (Z.eqb_spec (v mod 16) 15) as [H1|H1].
  { destruct (v / 64 =? 0); [|destruct (v / 64 =? 1); [|discriminate]]; intros [= <-]; right; right; cbn; repeat split; auto; lia. }
  destruct (v mod 16 =? 7); [discriminate|]. destruct (Z.eqb_spec (v mod 16) 3) as [H2|H2].
  - destruct (Z.leb_spec 128 v).
    + destruct (ch_ints c) eqn:I; intros [= <-]; left; cbn; rewrite ?I; auto 10.
    + intros [= <-]. right. left. cbn. auto 10.
  - intros [= <-]. right. right. repeat split; auto; lia.
Qed.
Lemma requests_step o x c c' : moves pd k o x c c' -> byte_op o ->
  (ch_ints c = false -> (exists t, o = BM1 t) \/ ch_ints c' = false) /\
  (ch_ints c = false -> ch_int c = false -> ch_int c' = false) /\
  (ch_want c = false -> ~ turns_on k o -> ch_want c' = false /\ (ch_ints c = false -> ch_ints c' = false)) /\
  (~ turns_off k o -> (ch_ints c = true -> ch_ints c' = true) /\ (ch_want c = true \/ ch_ints c = true -> ch_want c' = true \/ ch_ints c' = true) /\
    (forall t, o = BM1 t -> ch_want c = true \/ ch_ints c = true -> ch_ints c' = true) /\
    (turns_on k o -> ch_want c' = true \/ ch_ints c' = true) /\
    ((forall pc t, o <> BAck pc t) -> ch_int c = true -> ch_int c' = true)) /\
  ((forall v, word_to (k + 1) o = Some v -> vector_word v = false) -> ch_vec c' = ch_vec c).
Proof.
  intros M BO. unfold turns_off, turns_on.
  assert (EQ : c' = c -> (forall t, o <> BM1 t) -> (forall v, word_to (k + 1) o = Some v -> False) -> (ch_ints c = false -> (exists t, o = BM1 t) \/ ch_ints c' = false) /\
  (ch_ints c = false -> ch_int c = false -> ch_int c' = false) /\
  (ch_want c = false -> ~ (exists v, word_to (k + 1) o = Some v /\ enables v) -> ch_want c' = false /\ (ch_ints c = false -> ch_ints c' = false)) /\
  (~ (is_reset o = true \/ exists v, word_to (k + 1) o = Some v /\ disables v) -> (ch_ints c = true -> ch_ints c' = true) /\ (ch_want c = true \/ ch_ints c = true -> ch_want c' = true \/ ch_ints c' = true) /\
    (forall t, o = BM1 t -> ch_want c = true \/ ch_ints c = true -> ch_ints c' = true) /\
    ((exists v, word_to (k + 1) o = Some v /\ enables v) -> ch_want c' = true \/ ch_ints c' = true) /\
    ((forall pc t, o <> BAck pc t) -> ch_int c = true -> ch_int c' = true)) /\
  ((forall v, word_to (k + 1) o = Some v -> vector_word v = false) -> ch_vec c' = ch_vec c)).
  { intros -> NM NW. repeat split; auto; try (intros (v & V & _); now elim (NW v)). intros t ->. now elim (NM t). }
  assert (CK : forall t, c' = fst (chan_check pd t c) -> (forall t, o <> BM1 t) -> (forall v, word_to (k + 1) o = Some v -> False) -> (ch_ints c = false -> (exists t, o = BM1 t) \/ ch_ints c' = false) /\
  (ch_ints c = false -> ch_int c = false -> ch_int c' = false) /\
  (ch_want c = false -> ~ (exists v, word_to (k + 1) o = Some v /\ enables v) -> ch_want c' = false /\ (ch_ints c = false -> ch_ints c' = false)) /\
  (~ (is_reset o = true \/ exists v, word_to (k + 1) o = Some v /\ disables v) -> (ch_ints c = true -> ch_ints c' = true) /\ (ch_want c = true \/ ch_ints c = true -> ch_want c' = true \/ ch_ints c' = true) /\
    (forall t, o = BM1 t -> ch_want c = true \/ ch_ints c = true -> ch_ints c' = true) /\
    ((exists v, word_to (k + 1) o = Some v /\ enables v) -> ch_want c' = true \/ ch_ints c' = true) /\
    ((forall pc t, o <> BAck pc t) -> ch_int c = true -> ch_int c' = true)) /\
  ((forall v, word_to (k + 1) o = Some v -> vector_word v = false) -> ch_vec c' = ch_vec c)).
  { intros t -> NM NW. destruct (check_ints t c) as (A1 & A2 & A3 & A4 & A5 & _). rewrite A1, A2, A3. repeat split; auto; try (intros (v & V & _); now elim (NW v)).
    - intros I J. now rewrite A5.
    - intros t' ->. now elim (NM t'). }
  destruct o as [t|t|t|n|q t|q v t|t|pc t|pc t]; cbn [moves word_to] in *.
  - subst c'. cbn. repeat split; auto; try (intros; now left || reflexivity); intros; try (exfalso; now auto).
  - apply (CK t M); discriminate.
  - subst c'. unfold chan_m1. destruct (ch_want c) eqn:W; cbn; rewrite ?W; repeat split; eauto; try discriminate; try (intros (v & V & _); discriminate); intros; intuition congruence.
  - apply EQ; auto; discriminate.
  - destruct (_ || _); [|apply EQ; auto; discriminate]. destruct M as (v & E & _). destruct (read_ints _ _ _ _ E) as (A1 & A2 & A3 & A4). rewrite A1, A2, A3, A4.
    repeat split; auto; try discriminate; intros (u & U & _); discriminate.
  - destruct (Z.eqb_spec (q mod 256) k) as [Q|Q].
    + destruct (Z.eqb_spec (q mod 256) (k + 1)) as [Q'|_]; [lia|]. destruct (data_ints _ _ _ _ M) as (A1 & A2 & A3 & A4 & A5). rewrite A1, A2, A3.
      repeat split; auto; try discriminate; try (intros (u & U & _); discriminate). intros I J. now rewrite A5.
    + destruct (Z.eqb_spec (q mod 256) (k + 1)) as [Q'|Q'].
      * cbn [byte_op] in BO. destruct (control_ints v t c c' BO M) as [(V & A1 & A2 & A3 & A4)|[(V & A1 & A2 & A3 & A4)|(V1 & V2 & A1 & A2 & A3 & A4)]].
        -- rewrite A1, A3, A4. repeat split; auto; try discriminate; try tauto; intros; try (elim H0; eauto); intuition.
        -- rewrite A1, A2, A3, A4. repeat split; auto; try discriminate; exfalso; apply H; eauto.
        -- rewrite A1, A2, A3. repeat split; auto; try discriminate. intros (u & U & H2). injection U as <-. now elim V1.
      * apply EQ; auto; discriminate.
  - destruct M as [M|M]; [apply EQ; auto; discriminate|apply (CK t M); discriminate].
  - destruct M as [M|(I & -> & _)]; [apply EQ; auto; discriminate|]. cbn. repeat split; auto; try discriminate; try (intros (u & U & _); discriminate). intro H0. now elim (H0 pc t).
  - apply EQ; auto; discriminate.
Qed.
End Requests.

Section Interrupts.
Context {S R D : Type} (slurp : S -> S * option Z) (flush : Z -> R -> R * bool) (dv : dev D).
Notation pd := (ral_pio slurp flush dv).
Notation PA := (pio_input slurp).
Notation PB := (pio_output flush).
Notation P0 := (pio (S * bool) (R * option Z) D).
Lemma ops_inv (Q : bop -> Prop) (I : P0 -> Prop) : (forall o x p p', dev_do pd o p = Some (p', x) -> Q o -> I p -> I p') ->
  forall ops p p' l, dev_ops pd ops p = Some (p', l) -> Forall Q ops -> I p -> I p'.
Proof.
  intros ST. induction ops as [|o ops IH]; intros p p' l E F H; cbn [dev_ops] in E; [now injection E as <- _|].
  destruct (dev_do pd o p) as [[p1 x]|] eqn:E1; [|discriminate]. apply opt_inv in E as ([p2 l'] & E2 & E). injection E as -> _.
  inversion_clear F as [|? ? F1 F2]. eauto.
Qed.
Lemma ops_app ops1 : forall ops2 p p' l, dev_ops pd (ops1 ++ ops2) p = Some (p', l) ->
  exists p1 l1 l2, dev_ops pd ops1 p = Some (p1, l1) /\ dev_ops pd ops2 p1 = Some (p', l2) /\ l = l1 ++ l2.
Proof.
  induction ops1 as [|o ops IH]; intros ops2 p p' l E; cbn [app dev_ops] in *; [eauto 8|].
  destruct (dev_do pd o p) as [[p1 x]|]; [|discriminate]. apply opt_inv in E as ([p2 l'] & E2 & E). injection E as -> ->.
  destruct (IH _ _ _ _ E2) as (p3 & l1 & l2 & A1 & A2 & ->). exists p3, ((o, x) :: l1), l2. rewrite A1. auto.
Qed.
Definition idle {X} (c : chan X) : Prop := ch_ints c = false /\ ch_want c = false /\ ch_int c = false.
Lemma off_idle {X} (q : pdev X) k o x c c' : moves q k o x c c' -> byte_op o -> turns_off k o -> idle c'.
Proof.
  intros M BO [H|(v & W & DS)].
  - destruct o; try discriminate. cbn [moves] in M. subst. repeat split.
  - destruct o as [t|t|t|n|p t|p u t|t|pc t|pc t]; try discriminate. cbn [word_to] in W. cbn [moves] in M.
    destruct (Z.eqb_spec (p mod 256) (k + 1)) as [Q|Q]; [|discriminate]. injection W as ->. destruct (Z.eqb_spec (p mod 256) k); [lia|].
    cbn [byte_op] in BO. destruct (control_ints q v t c c' BO M) as [(V & _)|[(V & A1 & A2 & A3 & _)|(_ & V & _)]]; [unfold enables, disables in *; lia|repeat split; auto|now elim V].
Qed.
Definition channel_int (b : bool) (p : P0) : bool := if b then ch_int (pio_b p) else ch_int (pio_a p).
Lemma masked b o x p0 p1 ops1 ops2 p2 l :
  ((exists s r d, p1 = ral_pio_new s r d) \/ dev_do pd o p0 = Some (p1, x) /\ byte_op o /\ turns_off (data_port b) o) ->
  Forall (fun o => byte_op o /\ ~ turns_on (data_port b) o) ops1 -> Forall (fun o => byte_op o /\ forall t, o <> BM1 t) ops2 ->
  dev_ops pd (ops1 ++ ops2) p1 = Some (p2, l) -> channel_int b p2 = false.
Proof.
  intros B F1 F2 E. destruct (ops_app _ _ _ _ _ E) as (p3 & l1 & l2 & E1 & E2 & _). destruct b; cbn [channel_int data_port] in *.
  - assert (I : idle (pio_b p1)). { destruct B as [(s & r & d & ->)|(E0 & BO & T)]; [repeat split|]. apply do_moves in E0 as [_ M]. exact (off_idle _ _ _ _ _ _ M BO T). }
    assert (I3 : idle (pio_b p3)).
    { revert E1 F1 I. apply (ops_inv _ (fun p => idle (pio_b p))). intros o1 x1 q q' E' [BO T] (A1 & A2 & A3). apply do_moves in E' as [_ M].
      destruct (requests_step _ _ _ _ _ _ M BO) as (_ & S2 & S3 & _). destruct (S3 A2 T) as [S4 S5]. repeat split; auto. }
    assert (I2 : ch_ints (pio_b p2) = false /\ ch_int (pio_b p2) = false).
    { assert (J : ch_ints (pio_b p3) = false /\ ch_int (pio_b p3) = false) by (destruct I3 as (? & ? & ?); auto). revert E2 F2 J.
      apply (ops_inv _ (fun p => ch_ints (pio_b p) = false /\ ch_int (pio_b p) = false)). intros o1 x1 q q' E' [BO T] (A1 & A3). apply do_moves in E' as [_ M].
      destruct (requests_step _ _ _ _ _ _ M BO) as (S1 & S2 & _). split; [|auto]. destruct (S1 A1) as [[t ->]|]; [now elim (T t)|auto]. }
    now destruct I2.
  - assert (I : idle (pio_a p1)). { destruct B as [(s & r & d & ->)|(E0 & BO & T)]; [repeat split|]. apply do_moves in E0 as [M _]. exact (off_idle _ _ _ _ _ _ M BO T). }
    assert (I3 : idle (pio_a p3)).
    { revert E1 F1 I. apply (ops_inv _ (fun p => idle (pio_a p))). intros o1 x1 q q' E' [BO T] (A1 & A2 & A3). apply do_moves in E' as [M _].
      destruct (requests_step _ _ _ _ _ _ M BO) as (_ & S2 & S3 & _). destruct (S3 A2 T) as [S4 S5]. repeat split; auto. }
    assert (I2 : ch_ints (pio_a p2) = false /\ ch_int (pio_a p2) = false).
    { assert (J : ch_ints (pio_a p3) = false /\ ch_int (pio_a p3) = false) by (destruct I3 as (? & ? & ?); auto). revert E2 F2 J.
      apply (ops_inv _ (fun p => ch_ints (pio_a p) = false /\ ch_int (pio_a p) = false)). intros o1 x1 q q' E' [BO T] (A1 & A3). apply do_moves in E' as [M _].
      destruct (requests_step _ _ _ _ _ _ M BO) as (S1 & S2 & _). split; [|auto]. destruct (S1 A1) as [[t ->]|]; [now elim (T t)|auto]. }
    now destruct I2.
Qed.
(** Enabled by a word and an M1 cycle after it. *)
Definition armed {X} (c : chan X) : Prop := ch_want c = true \/ ch_ints c = true.
Lemma enabled (b : bool) o x p0 p1 ops p2 l :
  dev_do pd o p0 = Some (p1, x) -> byte_op o -> turns_on (data_port b) o -> dev_ops pd ops p1 = Some (p2, l) ->
  Forall (fun o => byte_op o /\ ~ turns_off (data_port b) o) ops -> (exists t, In (BM1 t) ops) -> if b then ch_ints (pio_b p2) = true else ch_ints (pio_a p2) = true.
Proof.
  intros E0 BO T E F [t I]. apply in_split in I as (o1 & o2 & ->). apply Forall_app in F as [F1 F2].
  destruct (ops_app _ _ _ _ _ E) as (p3 & l1 & l2 & E1 & E2 & _). cbn [dev_ops] in E2. destruct (dev_do pd (BM1 t) p3) as [[p4 x4]|] eqn:E4; [|discriminate].
  apply opt_inv in E2 as ([p5 l'] & E2 & E'). injection E' as -> _. inversion_clear F2 as [|? ? [_ F3] F4].
  assert (NT : ~ turns_off (data_port b) o). { destruct T as (v & V & EN). intros [H|(u & U & DS)]; [destruct o; discriminate|]. unfold enables, disables in *. assert (u = v) by congruence. subst. lia. }
  destruct b; cbn [data_port] in *.
  - apply do_moves in E0 as [_ M0]. destruct (requests_step _ _ _ _ _ _ M0 BO) as (_ & _ & _ & S4 & _). destruct (S4 NT) as (_ & _ & _ & S5 & _).
    assert (A3 : armed (pio_b p3)).
    { assert (S5' := S5 T). revert E1 F1 S5'. apply (ops_inv _ (fun p => armed (pio_b p))). intros o' x' q q' E' [BO' T'] A. apply do_moves in E' as [_ M].
      destruct (requests_step _ _ _ _ _ _ M BO') as (_ & _ & _ & S6 & _). destruct (S6 T') as (_ & S7 & _). exact (S7 A). }
    apply do_moves in E4 as [_ M4]. assert (A4 : ch_ints (pio_b p4) = true).
    { destruct (requests_step _ _ _ _ _ _ M4 Logic.I) as (_ & _ & _ & S6 & _). destruct (S6 F3) as (_ & _ & S7 & _). exact (S7 t eq_refl A3). }
    revert E2 F4 A4. apply (ops_inv _ (fun p => ch_ints (pio_b p) = true)). intros o' x' q q' E' [BO' T'] A. apply do_moves in E' as [_ M].
    destruct (requests_step _ _ _ _ _ _ M BO') as (_ & _ & _ & S6 & _). destruct (S6 T') as (S7 & _). exact (S7 A).
  - apply do_moves in E0 as [M0 _]. destruct (requests_step _ _ _ _ _ _ M0 BO) as (_ & _ & _ & S4 & _). destruct (S4 NT) as (_ & _ & _ & S5 & _).
    assert (A3 : armed (pio_a p3)).
    { assert (S5' := S5 T). revert E1 F1 S5'. apply (ops_inv _ (fun p => armed (pio_a p))). intros o' x' q q' E' [BO' T'] A. apply do_moves in E' as [M _].
      destruct (requests_step _ _ _ _ _ _ M BO') as (_ & _ & _ & S6 & _). destruct (S6 T') as (_ & S7 & _). exact (S7 A). }
    apply do_moves in E4 as [M4 _]. assert (A4 : ch_ints (pio_a p4) = true).
    { destruct (requests_step _ _ _ _ _ _ M4 Logic.I) as (_ & _ & _ & S6 & _). destruct (S6 F3) as (_ & _ & S7 & _). exact (S7 t eq_refl A3). }
    revert E2 F4 A4. apply (ops_inv _ (fun p => ch_ints (pio_a p) = true)). intros o' x' q q' E' [BO' T'] A. apply do_moves in E' as [M _].
    destruct (requests_step _ _ _ _ _ _ M BO') as (_ & _ & _ & S6 & _). destruct (S6 T') as (S7 & _). exact (S7 A).
Qed.
(** The line with nothing in service. *)
Lemma irq_check t (p p' : P0) x : dev_do pd (BIrq t) p = Some (p', x) -> pio_ieo p = false ->
  ch_int (fst (chan_check PA t (pio_a p))) = true \/ ch_int (fst (chan_check PB t (pio_b p))) = true -> x = ALine true /\ (ch_int (pio_a p') = true \/ ch_int (pio_b p') = true).
Proof.
  cbn [dev_do pd ral_pio pio_dev dv_is_irq]. unfold pio_is_irq. intros H IE C. rewrite IE in H.
  destruct (check_ints PA t (pio_a p)) as (_ & _ & _ & _ & _ & SA). destruct (check_ints PB t (pio_b p)) as (_ & _ & _ & _ & _ & SB).
  destruct (chan_check PA t (pio_a p)) as [a ia]. destruct (chan_check PB t (pio_b p)) as [b ib]. cbn [fst snd] in *. subst ia ib.
  destruct (ch_int a) eqn:IA; [injection H as <- <-; cbn; auto|]. destruct (ch_int b) eqn:IB; [injection H as <- <-; cbn; auto|]. destruct C; discriminate.
Qed.
(** After RETI nothing is in service here. *)
Lemma reti_done pc t (p p' : P0) x : dev_do pd (BReti pc t) p = Some (p', x) -> x = ANone /\ pio_ieo p' = false /\ pio_a p' = pio_a p /\ pio_b p' = pio_b p /\ (pio_ieo p = true -> pio_next p' = pio_next p).
Proof.
  cbn [dev_do pd ral_pio pio_dev dv_reti]. unfold pio_reti. destruct (pio_ieo p) eqn:IE; intro H.
  - injection H as <- <-. auto.
  - apply opt_inv in H as (w & E & H). injection H as -> ->. apply opt_inv in E as (v & E & ->). cbn. repeat split; auto. discriminate.
Qed.
Lemma serviced pc t (p p1 : P0) x : dev_do pd (BAck pc t) p = Some (p1, x) -> ch_int (pio_a p) || ch_int (pio_b p) = true ->
  x = AByte (if ch_int (pio_a p) then ch_vec (pio_a p) else ch_vec (pio_b p)) /\
  forall ops p2 l, dev_ops pd ops p1 = Some (p2, l) -> Forall (fun o => is_reset o = false /\ forall pc t, o <> BReti pc t) ops ->
    Forall (fun e => snd e <> ALine true) l /\
    forall pc' t' p3 y, dev_do pd (BReti pc' t') p2 = Some (p3, y) -> pio_next p3 = pio_next p2 /\ pio_ieo p3 = false.
Proof.
  intros E H. assert (K := ack_cases _ _ _ _ _ _ _ _ _ _ _ _ E).
  assert (K' : x = AByte (if ch_int (pio_a p) then ch_vec (pio_a p) else ch_vec (pio_b p)) /\ pio_ieo p1 = true).
  { destruct (ch_int (pio_a p)); [destruct K as [-> ->]; auto|]. cbn [orb] in H. rewrite H in K. destruct K as [-> ->]. auto. }
  destruct K' as [-> I1]. split; [reflexivity|]. clear E H K. intros ops. revert p1 I1. induction ops as [|o ops IH]; intros p1 I1 p2 l E F; cbn [dev_ops] in E.
  - injection E as <- <-. split; [constructor|]. intros pc' t' p3 y E3. destruct (reti_done _ _ _ _ _ E3) as (_ & A2 & _ & _ & A5). auto.
  - destruct (dev_do pd o p1) as [[p3 y]|] eqn:E1; [|discriminate]. apply opt_inv in E as ([p4 l'] & E2 & E). injection E as -> ->. inversion_clear F as [|? ? [F1 F2] F3].
    assert (J : pio_ieo p3 = true /\ y <> ALine true).
    { destruct o as [t0|t0|t0|n|q t0|q v t0|t0|pc0 t0|pc0 t0]; cbn [dev_do pd ral_pio pio_dev dv_frame_end dv_m1 dv_next_second dv_read_io dv_write_io dv_is_irq dv_irq_data] in E1; try discriminate;
        try (apply opt_inv in E1 as (w & E & E1); injection E1 as -> ->).
      - unfold pio_frame_end, then_next in E. apply opt_inv in E as (d & _ & ->). cbn. split; [exact I1|discriminate].
      - unfold pio_m1, then_next in E. apply opt_inv in E as (d & _ & ->). cbn. split; [exact I1|discriminate].
      - unfold pio_next_second, then_next in E. apply opt_inv in E as (d & _ & ->). cbn. split; [exact I1|discriminate].
      - split; [|discriminate]. unfold pio_read_io in E. destruct (_ =? PIO_BITS); [apply opt_inv in E as (w' & E & ->); destruct (_ =? 0)|]; unfold map_a, map_b, map_next in E; apply opt_inv in E as (w'' & E & ->); exact I1.
      - split; [|discriminate]. unfold pio_write_io in E. destruct (_ =? PIO_BITS); [apply opt_inv in E as (w' & E & ->); destruct (_ =? 0)|]; unfold map_a, map_b, map_next in E; apply opt_inv in E as (w'' & E & ->); exact I1.
      - unfold pio_is_irq in E. rewrite I1 in E. injection E as <-. cbn. split; [exact I1|discriminate].
      - split; [|discriminate]. unfold pio_irq_data in E. destruct (ch_int (pio_a p1)); [injection E as <-; reflexivity|]. destruct (ch_int (pio_b p1)); [injection E as <-; reflexivity|].
        unfold map_next in E. apply opt_inv in E as (w'' & E & ->). exact I1.
      - now elim (F2 pc0 t0). }
    destruct J as [J1 J2]. cbn [fst snd]. destruct (IH p3 J1 p4 l' E2 F3) as [G1 G2]. split; [constructor; assumption|exact G2].
Qed.
End Interrupts.

Section Taken.
Context {S R D : Type} (slurp : S -> S * option Z) (flush : Z -> R -> R * bool) (dv : dev D).
Notation pd := (ral_pio (taped slurp) flush dv).
Notation PA := (pio_input (taped slurp)).
Notation tape p := (snd (fst (ch_dev (pio_a p)))).
Lemma taken_step o x c c' : moves PA 8 o x c c' -> ch_ints c = true -> snd (fst (ch_dev c')) <> snd (fst (ch_dev c)) ->
  ch_int c' = true /\ ch_vec c' = ch_vec c /\ (forall pc t, o <> BReti pc t).
Proof.
  intros M I T.
  assert (C : forall t, c' = fst (chan_check PA t c) -> ch_int c' = true /\ ch_vec c' = ch_vec c).
  { intros t ->. revert T. unfold chan_check. destruct (ch_ready c); [|intro T; now elim T]. destruct (ch_output c).
    - cbn [pd_strobe pio_input]. cbn. intro T. now elim T.
    - cbn [pd_sample pio_input]. destruct (snd (ch_dev c)); [|cbn; intro T; now elim T]. unfold taped. destruct (slurp _) as [s [v|]]; [|cbn; intro T; now elim T].
      unfold chan_set_int. cbn [ch_ints fst]. rewrite I. auto. }
  destruct o as [t|t|t|n|q t|q v t|t|pc t|pc t]; cbn [moves] in *.
  - subst c'. now elim T.
  - destruct (C t M). repeat split; auto; discriminate.
  - subst c'. elim T. unfold chan_m1. now destruct (ch_want c).
  - subst c'. now elim T.
  - destruct (_ || _); [|subst c'; now elim T]. destruct M as (v & E & _). unfold chan_read in E. elim T. destruct (ch_output c); [now injection E as <- _|].
    apply opt_inv in E as (t' & _ & E). now injection E as -> _.
  - elim T. destruct (q mod 256 =? 8).
    + unfold chan_write_data in M. destruct (ch_output c); [|now injection M as <-]. destruct (ch_ready c); [|apply opt_inv in M as (t' & _ & ->); reflexivity].
      cbn [pd_strobe pio_input] in M. apply opt_inv in M as (t' & _ & ->). reflexivity.
    + destruct (q mod 256 =? 8 + 1); [|now subst]. rewrite control_cases in M. destruct (v mod 2 =? 0); [now injection M as <-|].
      destruct (v mod 16 =? 15). { destruct (v / 64 =? 0); [now injection M as <-|]. destruct (v / 64 =? 1); [now injection M as <-|discriminate]. }
      destruct (v mod 16 =? 7); [discriminate|]. destruct (v mod 16 =? 3); [|now injection M as <-]. destruct (Z.testbit v 7); [|now injection M as <-].
      destruct (ch_ints c); now injection M as <-.
  - destruct M as [->|M]; [now elim T|]. destruct (C t M). repeat split; auto; discriminate.
  - destruct M as [->|(_ & -> & _)]; now elim T.
  - subst c'. now elim T.
Qed.
Lemma requested_flag o0 x0 p0 p1 ops p2 l o x p3 ops2 p4 l2 :
  dev_do pd o0 p0 = Some (p1, x0) -> byte_op o0 -> turns_on 8 o0 -> dev_ops pd ops p1 = Some (p2, l) ->
  Forall (fun o => byte_op o /\ ~ turns_off 8 o) ops -> (exists t, In (BM1 t) ops) ->
  dev_do pd o p2 = Some (p3, x) -> tape p3 <> tape p2 ->
  dev_ops pd ops2 p3 = Some (p4, l2) -> Forall (fun o => byte_op o /\ ~ turns_off 8 o /\ (forall pc t, o <> BAck pc t) /\ forall v, word_to 9 o = Some v -> vector_word v = false) ops2 ->
  ch_int (pio_a p4) = true /\ ch_vec (pio_a p4) = ch_vec (pio_a p2).
Proof.
  intros E0 BO T E F M1 E2 TP E3 F3. assert (I := enabled _ _ _ false _ _ _ _ _ _ _ E0 BO T E F M1). cbn in I.
  apply do_moves in E2 as [M _]. destruct (taken_step _ _ _ _ M I TP) as (I3 & V3 & _).
  assert (J : ch_int (pio_a p3) = true /\ ch_vec (pio_a p3) = ch_vec (pio_a p2)) by auto. revert E3 F3 J. apply (ops_inv _ _ _ _ (fun p => ch_int (pio_a p) = true /\ ch_vec (pio_a p) = ch_vec (pio_a p2))).
    intros o' x' q q' E' (BO' & T' & NA & NV) [A1 A2]. apply do_moves in E' as [M' _]. destruct (requests_step _ _ _ _ _ _ M' BO') as (_ & _ & _ & S6 & S7).
    destruct (S6 T') as (_ & _ & _ & _ & S8). split; [exact (S8 NA A1)|]. rewrite <- A2. apply S7. exact NV.
Qed.
Lemma requested o0 x0 p0 p1 ops p2 l o x p3 ops2 p4 l2 pc1 t1 t2 pc3 t3 p5 l3 :
  dev_do pd o0 p0 = Some (p1, x0) -> byte_op o0 -> turns_on 8 o0 -> dev_ops pd ops p1 = Some (p2, l) ->
  Forall (fun o => byte_op o /\ ~ turns_off 8 o) ops -> (exists t, In (BM1 t) ops) ->
  dev_do pd o p2 = Some (p3, x) -> tape p3 <> tape p2 ->
  dev_ops pd ops2 p3 = Some (p4, l2) -> Forall (fun o => byte_op o /\ ~ turns_off 8 o /\ (forall pc t, o <> BAck pc t) /\ forall v, word_to 9 o = Some v -> vector_word v = false) ops2 ->
  dev_ops pd [BReti pc1 t1; BIrq t2; BAck pc3 t3] p4 = Some (p5, l3) -> map snd l3 = [ANone; ALine true; AByte (ch_vec (pio_a p2))].
Proof.
  intros E0 BO T E F M1 E2 TP E3 F3 E4. destruct (requested_flag _ _ _ _ _ _ _ _ _ _ _ _ _ E0 BO T E F M1 E2 TP E3 F3) as [J1 J2].
  cbn [dev_ops] in E4. destruct (dev_do pd (BReti pc1 t1) p4) as [[q1 y1]|] eqn:D1; [|discriminate].
  destruct (reti_done _ _ _ _ _ _ _ _ D1) as (-> & A2 & A3 & A4 & _). destruct (dev_do pd (BIrq t2) q1) as [[q2 y2]|] eqn:D2; [|discriminate].
  destruct (check_ints PA t2 (pio_a q1)) as (_ & _ & V & C & _ & CS). rewrite A3 in *. specialize (C J1).
  assert (D2' : y2 = ALine true /\ ch_int (pio_a q2) = true /\ ch_vec (pio_a q2) = ch_vec (pio_a p2)).
  { cbn [dev_do pd ral_pio pio_dev dv_is_irq] in D2. unfold pio_is_irq in D2. rewrite A2, A3 in D2. destruct (chan_check PA t2 (pio_a p4)) as [a ia]. cbn [fst snd] in *. subst ia. rewrite C in D2.
    injection D2 as <- <-. cbn. repeat split; auto. congruence. }
  destruct D2' as (-> & D3 & D4). destruct (dev_do pd (BAck pc3 t3) q2) as [[q3 y3]|] eqn:D5; [|discriminate]. cbn [option_map fst snd map] in E4. injection E4 as _ <-. cbn [map snd].
  assert (K := ack_cases _ _ _ _ _ _ _ _ _ _ _ _ D5). rewrite D3 in K. destruct K as [_ ->]. now rewrite D4.
Qed.
End Taken.
Section Sent.
Context {S R D : Type} (slurp : S -> S * option Z) (flush : Z -> R -> R * bool) (dv : dev D).
Notation pd := (ral_pio slurp (taped_sink flush) dv).
Notation PB := (pio_output (taped_sink flush)).
Notation pend p := (snd (ch_dev (pio_b p))).
Lemma ready_flag o0 x0 p0 p1 ops p2 l q v t p3 x ops2 p4 l2 :
  dev_do pd o0 p0 = Some (p1, x0) -> byte_op o0 -> turns_on 10 o0 -> dev_ops pd ops p1 = Some (p2, l) ->
  Forall (fun o => byte_op o /\ ~ turns_off 10 o) ops -> (exists t, In (BM1 t) ops) ->
  ch_output (pio_b p2) = true -> q mod 256 = 10 -> dev_do pd (BOut q v t) p2 = Some (p3, x) -> pend p3 = None ->
  dev_ops pd ops2 p3 = Some (p4, l2) -> Forall (fun o => byte_op o /\ plain o /\ (forall pc t, o <> BAck pc t) /\ word_to 10 o = None) ops2 ->
  ch_output (pio_b p4) = true /\ ch_ints (pio_b p4) = true /\ (ch_int (pio_b p4) = true \/ ch_ready (pio_b p4) = true /\ pend p4 = None).
Proof.
  intros E0 BO T E F M1 O2 Q E2 PN E3 F3. assert (I := enabled _ _ _ true _ _ _ _ _ _ _ E0 BO T E F M1). cbn in I.
  assert (PL : plain (BOut q v t)) by (unfold plain; cbn [is_reset word_to]; rewrite Q; auto).
  apply do_moves in E2 as [_ M]. destruct (output_step flush _ _ _ _ M O2 PL) as (O3 & _ & ST). cbn [word_to] in ST. rewrite Q in ST. cbn [Z.eqb Pos.eqb] in ST. destruct ST as (R3 & _).
  assert (I3 : ch_ints (pio_b p3) = true). { cbn [moves] in M. rewrite Q in M. cbn [Z.eqb Pos.eqb] in M. destruct (data_ints _ _ _ _ _ M) as (A1 & _). congruence. }
  assert (J : ch_output (pio_b p3) = true /\ ch_ints (pio_b p3) = true /\ (ch_int (pio_b p3) = true \/ ch_ready (pio_b p3) = true /\ pend p3 = None)) by auto.
    revert E3 F3 J. apply (ops_inv _ _ _ _ (fun p => ch_output (pio_b p) = true /\ ch_ints (pio_b p) = true /\ (ch_int (pio_b p) = true \/ ch_ready (pio_b p) = true /\ pend p = None))).
    intros o' x' q0 q' E' (BO' & P' & NA & NW) (A1 & A2 & A3). apply do_moves in E' as [_ M']. destruct P' as (N1 & N2 & N3).
    assert (NT : ~ turns_off 10 o') by (intros [H|(w & W & _)]; [congruence|change (10 + 1) with 11 in W; congruence]).
    destruct (requests_step _ _ _ _ _ _ M' BO') as (_ & _ & _ & S6 & _). destruct (S6 NT) as (S7 & _ & _ & _ & S8).
    destruct (output_step flush _ _ _ _ M' A1 (conj N1 (conj N2 N3))) as (O' & _ & ST). rewrite NW in ST. split; [exact O'|]. split; [auto|].
    destruct A3 as [A3|[A3 A4]]; [left; auto|]. destruct (ch_int (pio_b q0)) eqn:IQ; [left; auto|].
    assert (CK : forall t0, pio_b q' = fst (chan_check PB t0 (pio_b q0)) -> ch_int (pio_b q') = true).
    { intros t0 ->. unfold chan_check. rewrite A3, A1. cbn [pd_strobe pio_output]. rewrite A4. unfold chan_set_int. cbn [ch_ints fst]. now rewrite A2. }
    destruct ST as [->|[(P1 & _ & R1 & _)|(R1 & R2 & P1 & T1)]]; [auto|right; split; congruence|left].
    destruct o' as [u|u|u|n|p u|p w u|u|pc u|pc u]; cbn [moves] in M'; try discriminate.
    - exact (CK u M').
    - rewrite M' in R2. unfold chan_m1 in R2. destruct (ch_want (pio_b q0)); cbn in R2; congruence.
    - rewrite M' in R2. congruence.
    - destruct (_ || _); [|congruence]. destruct M' as (z & Z1 & _). unfold chan_read in Z1. rewrite A1 in Z1. injection Z1 as Z1 _. congruence.
    - cbn [word_to] in NW, N3. destruct (p mod 256 =? 10); [discriminate|]. change (10 + 1) with 11 in M'. destruct (p mod 256 =? 11); [discriminate|congruence].
    - destruct M' as [M'|M']; [congruence|exact (CK u M')].
    - now elim (NA pc u).
    - congruence.
Qed.
Lemma ready_in o0 x0 p0 p1 ops p2 l q v t p3 x ops2 p4 l2 pc1 t1 t2 p5 l3 :
  dev_do pd o0 p0 = Some (p1, x0) -> byte_op o0 -> turns_on 10 o0 -> dev_ops pd ops p1 = Some (p2, l) ->
  Forall (fun o => byte_op o /\ ~ turns_off 10 o) ops -> (exists t, In (BM1 t) ops) ->
  ch_output (pio_b p2) = true -> q mod 256 = 10 -> dev_do pd (BOut q v t) p2 = Some (p3, x) -> pend p3 = None ->
  dev_ops pd ops2 p3 = Some (p4, l2) -> Forall (fun o => byte_op o /\ plain o /\ (forall pc t, o <> BAck pc t) /\ word_to 10 o = None) ops2 ->
  dev_ops pd [BReti pc1 t1; BIrq t2] p4 = Some (p5, l3) -> map snd l3 = [ANone; ALine true].
Proof.
  intros E0 BO T E F M1 O2 Q E2 PN E3 F3 E4. destruct (ready_flag _ _ _ _ _ _ _ _ _ _ _ _ _ _ _ E0 BO T E F M1 O2 Q E2 PN E3 F3) as (J1 & J2 & J3).
  cbn [dev_ops] in E4. destruct (dev_do pd (BReti pc1 t1) p4) as [[q1 y1]|] eqn:D1; [|discriminate].
  destruct (reti_done _ _ _ _ _ _ _ _ D1) as (-> & A2 & A3 & A4 & _). destruct (dev_do pd (BIrq t2) q1) as [[q2 y2]|] eqn:D2; [|discriminate].
  cbn [option_map fst snd] in E4. injection E4 as _ <-. cbn [map snd]. destruct (irq_check _ _ _ _ _ _ _ D2 A2) as [-> _]; [|reflexivity]. right. rewrite A4.
  destruct J3 as [J3|[J3 J4]]; [destruct (check_ints PB t2 (pio_b p4)) as (_ & _ & _ & C & _); auto|].
  unfold chan_check. rewrite J3, J1. cbn [pd_strobe pio_output]. rewrite J4. unfold chan_set_int. cbn [ch_ints fst]. now rewrite J2.
Qed.
End Sent.
Section Panics.
Context {S R D : Type} (slurp : S -> S * option Z) (flush : Z -> R -> R * bool) (dv : dev D).
Notation pd := (ral_pio slurp flush dv).
Lemma control_none {X} (q : pdev X) v t c : 0 <= v -> chan_write_control q v t c = None <-> unsupported v.
Proof.
  intro V0. rewrite control_cases. unfold unsupported. destruct (Z.eqb_spec (v mod 2) 0); [split; [discriminate|lia]|]. destruct (Z.eqb_spec (v mod 16) 15).
  - destruct (Z.eqb_spec (v / 64) 0); [split; [discriminate|lia]|]. destruct (Z.eqb_spec (v / 64) 1); [split; [discriminate|lia]|].
    split; [|reflexivity]. intros _. right. split; [assumption|]. lia.
  - destruct (Z.eqb_spec (v mod 16) 7); [split; auto|]. destruct (Z.eqb_spec (v mod 16) 3); [|split; [discriminate|lia]]. destruct (Z.testbit v 7); (split; [discriminate|lia]).
Qed.
Lemma data_some {X} (q : pdev X) v t c : t + 3 < 2 ^ 32 -> chan_write_data q v t c <> None.
Proof.
  intro T. unfold chan_write_data. destruct (ch_output c); [|discriminate].
  assert (A : forall n, n <= 3 -> add32 t n <> None) by (intros n N; unfold add32; destruct (Z.ltb_spec (t + n) (2 ^ 32)); [discriminate|lia]).
  destruct (ch_ready c); [destruct (pd_strobe _ _ _) as [y ok]; destruct ok|];
  match goal with |- context [add32 t ?n] => specialize (A n ltac:(lia)); destruct (add32 t n); [discriminate|now elim A] end.
Qed.
Lemma read_some {X} (q : pdev X) t c : t + 3 < 2 ^ 32 -> chan_read q t c <> None.
Proof.
  intro T. unfold chan_read. destruct (ch_output c); [discriminate|].
  assert (A : add32 t (if ch_ready c then 3 else 1) <> None) by (unfold add32; destruct (Z.ltb_spec (t + if ch_ready c then 3 else 1) (2 ^ 32)); [discriminate|destruct (ch_ready c); lia]).
  destruct (add32 t _); [discriminate|now elim A].
Qed.
Lemma some_map {A B} (f : A -> B) x : option_map f x = None <-> x = None.
Proof. destruct x; cbn; split; congruence. Qed.
Lemma panics o p : (forall o d, dev_do dv o d <> None) -> byte_op o -> op_time o + 3 < 2 ^ 32 ->
  (dev_do pd o p = None <-> exists v, (word_to 9 o = Some v \/ word_to 11 o = Some v) /\ unsupported v).
Proof.
  intros NP BO T.
  assert (NW : dev_do pd o p <> None -> (forall v, word_to 9 o = Some v \/ word_to 11 o = Some v -> ~ unsupported v) ->
    (dev_do pd o p = None <-> exists v, (word_to 9 o = Some v \/ word_to 11 o = Some v) /\ unsupported v)).
  { intros A B. split; [intro C; now elim A|]. intros (v & V & U). now elim (B v). }
  destruct o as [t|t|t|n|q t|q v t|t|pc t|pc t].
  1,2,3,4,5,7,8,9: apply NW; [|cbn; intros ? [?|?]; discriminate]; cbn [op_time] in T; cbn [dev_do pd ral_pio pio_dev dv_reset dv_frame_end dv_m1 dv_next_second dv_read_io dv_write_io dv_is_irq dv_irq_data dv_reti]; rewrite some_map.
  - unfold pio_reset, then_next. rewrite some_map. specialize (NP (BReset t) (pio_next p)). cbn [dev_do] in NP. now rewrite some_map in NP.
  - unfold pio_frame_end, then_next. rewrite some_map. specialize (NP (BFrame t) (pio_next p)). cbn [dev_do] in NP. now rewrite some_map in NP.
  - unfold pio_m1, then_next. rewrite some_map. specialize (NP (BM1 t) (pio_next p)). cbn [dev_do] in NP. now rewrite some_map in NP.
  - unfold pio_next_second, then_next. rewrite some_map. specialize (NP (BSecond n) (pio_next p)). cbn [dev_do] in NP. now rewrite some_map in NP.
  - unfold pio_read_io. destruct (_ =? PIO_BITS).
    + rewrite some_map. destruct (_ =? 0); unfold map_a, map_b; rewrite some_map; now apply read_some.
    + unfold map_next. rewrite some_map. specialize (NP (BIn q t) (pio_next p)). cbn [dev_do] in NP. now rewrite some_map in NP.
  - unfold pio_is_irq. destruct (pio_ieo p); [discriminate|]. destruct (chan_check _ t (pio_a p)) as [a ia]. destruct ia; [discriminate|].
    destruct (chan_check _ t (pio_b p)) as [b ib]. destruct ib; [discriminate|]. unfold map_next. rewrite some_map.
    specialize (NP (BIrq t) (pio_next p)). cbn [dev_do] in NP. now rewrite some_map in NP.
  - unfold pio_irq_data. destruct (ch_int (pio_a p)); [discriminate|]. destruct (ch_int (pio_b p)); [discriminate|]. unfold map_next. rewrite some_map.
    specialize (NP (BAck pc t) (pio_next p)). cbn [dev_do] in NP. now rewrite some_map in NP.
  - unfold pio_reti. destruct (pio_ieo p); [discriminate|]. unfold map_next. rewrite some_map. specialize (NP (BReti pc t) (pio_next p)). cbn [dev_do] in NP. now rewrite some_map in NP.
  - cbn [dev_do pd ral_pio pio_dev dv_write_io word_to op_time byte_op] in *. rewrite some_map. unfold pio_write_io. destruct (pio_ports q) as (P1 & P2 & P3). rewrite P1, P2, P3.
    destruct (Z.eqb_spec (q mod 256 / 4) 2) as [Q|Q].
    + rewrite some_map.
      destruct (Z.even (q mod 256)) eqn:U; [assert (q mod 256 mod 2 = 0) by (rewrite Zmod_even, U; reflexivity)|assert (q mod 256 mod 2 = 1) by (rewrite Zmod_even, U; reflexivity)];
      (destruct (Z.even (q mod 256 / 2)) eqn:V; [assert (q mod 256 / 2 mod 2 = 0) by (rewrite Zmod_even, V; reflexivity)|assert (q mod 256 / 2 mod 2 = 1) by (rewrite Zmod_even, V; reflexivity)]);
      unfold map_a, map_b, unit_; rewrite !some_map.
      * destruct (Z.eqb_spec (q mod 256) 9); [lia|]. destruct (Z.eqb_spec (q mod 256) 11); [lia|]. split; [intro N; now elim (data_some _ _ _ _ T N)|]. intros (u & [?|?] & _); discriminate.
      * destruct (Z.eqb_spec (q mod 256) 9); [lia|]. destruct (Z.eqb_spec (q mod 256) 11); [lia|]. split; [intro N; now elim (data_some _ _ _ _ T N)|]. intros (u & [?|?] & _); discriminate.
      * replace (q mod 256) with 9 by lia. cbn [Z.eqb Pos.eqb]. rewrite control_none by lia. split; [intro N; exists v; auto|]. intros (u & [[= ->]|?] & N); [exact N|discriminate].
      * replace (q mod 256) with 11 by lia. cbn [Z.eqb Pos.eqb]. rewrite control_none by lia. split; [intro N; exists v; auto|]. intros (u & [?|[= ->]] & N); [discriminate|exact N].
    + destruct (Z.eqb_spec (q mod 256) 9); [lia|]. destruct (Z.eqb_spec (q mod 256) 11); [lia|]. unfold map_next. rewrite some_map. specialize (NP (BOut q v t) (pio_next p)). cbn [dev_do] in NP. rewrite some_map in NP.
      split; [intro N; now elim NP|]. intros (u & [?|?] & _); discriminate.
Qed.
End Panics.
Section Statements.
Context (S R D : Type).
Lemma input_heard slurp (flush : Z -> R -> R * bool) (dv : dev D) o x (p0 p p' : pio ((S * list Z) * bool) (R * option Z) D) ops l :
  let port := ral_pio (taped slurp) flush dv in
  (exists s r d, p = ral_pio_new s r d) \/
    dev_do port o p0 = Some (p, x) /\ byte_op o /\ (is_reset o = true \/ exists v, word_to 9 o = Some v /\ selects 1 v) ->
  dev_ops port ops p = Some (p', l) -> Forall (fun o => is_reset o = false /\ forall v, word_to 9 o = Some v -> mode_word v = false) ops ->
  exists first sent, snd (fst (ch_dev (pio_a p'))) = snd (fst (ch_dev (pio_a p))) ++ sent /\ heard first sent (a_reads l).
Proof.
  intros port B E F. assert (O : ch_output (pio_a p) = false).
  { destruct B as [(s & r & d & ->)|(E0 & BO & [H|(v & W & M1 & M2)])]; [reflexivity| |]; apply do_moves in E0 as [M _].
    - destruct o; try discriminate. cbn [moves] in M. now rewrite M.
    - destruct o as [t|t|t|n|q t|q u t|t|pc t|pc t]; try discriminate. cbn [word_to moves] in *. destruct (Z.eqb_spec (q mod 256) 9) as [Q|]; [|discriminate]. injection W as ->.
      rewrite Q in M. cbn [Z.eqb Pos.eqb Z.add Pos.add] in M. rewrite control_cases, M1, M2 in M. destruct (Z.eqb_spec (v mod 2) 0); [lia|]. cbn in M. now injection M as <-. }
  destruct (input_run slurp flush dv ops p p' l E O F) as (sent & n & ns & T & L & NS & RD & _). exists (ch_in (pio_a p)), sent. split; [exact T|]. exists n, ns. auto.
Qed.
Lemma output_sent (slurp : S -> S * option Z) flush (dv : dev D) o x (p0 p p' : pio (S * bool) ((R * list Z) * option Z) D) ops l :
  let port := ral_pio slurp (taped_sink flush) dv in
  dev_do port o p0 = Some (p, x) -> (exists v, word_to 11 o = Some v /\ selects 0 v) -> byte_op o ->
  snd (ch_dev (pio_b p0)) = None -> ch_int (pio_b p0) = false -> ch_vec (pio_a p0) <> ch_vec (pio_b p0) ->
  (forall pc t d d' y, dv_irq_data dv pc t d = Some (d', y) -> fst y <> ch_vec (pio_b p0)) ->
  dev_ops port ops p = Some (p', l) -> Forall plain ops -> paced (ch_vec (pio_b p0)) true l ->
  exists sent, snd (fst (ch_dev (pio_b p'))) = snd (fst (ch_dev (pio_b p))) ++ sent /\ b_writes ops = sent ++ held (snd (ch_dev (pio_b p'))).
Proof.
  intros port E0 (v & W & M1 & M2) BO PN IN VV VC E F P. assert (E0' := E0). apply do_moves in E0' as [MA MB].
  destruct o as [t|t|t|n|q t|q u t|t|pc t|pc t]; try discriminate. cbn [word_to moves] in *. destruct (Z.eqb_spec (q mod 256) 11) as [Q|]; [|discriminate]. injection W as ->.
  rewrite Q in *. cbn [Z.eqb Pos.eqb Z.add Pos.add Pos.succ] in MA, MB. rewrite control_cases, M1, M2 in MB. destruct (Z.eqb_spec (v mod 2) 0); [lia|]. cbn in MB. injection MB as MB.
  destruct (output_paced slurp flush dv (ch_vec (pio_a p0)) (ch_vec (pio_b p0)) ops VV VC true p p' l E F P) as (sent & T & H).
  - now rewrite <- MB.
  - now rewrite MA.
  - now rewrite <- MB.
  - rewrite <- MB. auto.
  - rewrite <- MB. auto.
  - rewrite <- MB. cbn. rewrite IN. now intros [_ ?].
  - exists sent. split; [exact T|]. rewrite <- MB in H at 1. cbn [ch_dev] in H. cbn [pd_bus_data pio_output] in H. rewrite PN in H. exact H.
Qed.
End Statements.
