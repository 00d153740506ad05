(** C56: the devices of the example computer in their chain. *)
From Coq Require Import ZArith Bool List Lia.
From Verif Require Import Base RalBus RalPio SpecPio RalPioProofs RalCtc SpecCtc RalCtcProofs RalCtcChip SpecChain.
Import ListNotations.
Open Scope Z_scope.
Ltac Zify.zify_post_hook ::= Z.div_mod_to_equations.

Section Through.
Context {W D : Type} (g0 g1 g2 g3 : trig W) (dv : dev D).
Notation chip := (chip g0 g1 g2 g3 dv).
Notation ctc := (ctc W D).
Definition timers (p : ctc) : bool := cc_int (ct_0 p) || cc_int (ct_1 p) || cc_int (ct_2 p) || cc_int (ct_3 p).
Lemma all_four_next (p : ctc) f h ieo p' : all_four g0 g1 g2 g3 p f h ieo = Some p' -> ct_next p' = ct_next p /\ ct_ieo p' = ieo /\ ct_vec p' = ct_vec p.
Proof. intros H. unfold all_four in H. step H. destruct p0 as [c0 w0]. step H. destruct p0 as [c1 w1]. step H. destruct p0 as [c2 w2]. step H. destruct p0 as [c3 w3]. injection H as <-. auto. Qed.
Lemma one_of_next {R} q (p : ctc) (f : trig W -> cchan -> W -> option (cchan * W * R)) p' r : one_of g0 g1 g2 g3 CTC_CS1 CTC_CS0 q p f = Some (p', r) ->
  ct_next p' = ct_next p /\ ct_ieo p' = ct_ieo p /\ ct_vec p' = ct_vec p.
Proof. intros H. unfold one_of in H. destruct (_ =? _), (_ =? _); step H; destruct p0 as [[c w] r']; injection H as <- <-; auto. Qed.
Lemma scan_next t (p p' : ctc) : process_channels g0 g1 g2 g3 t p = Some p' -> ct_next p' = ct_next p /\ ct_ieo p' = ct_ieo p /\ ct_vec p' = ct_vec p.
Proof. intros H. destruct (scan g0 g1 g2 g3 0 t p p' (or_introl eq_refl) H) as (_ & A & B & C). auto. Qed.
Lemma behind_next (p : ctc) f p' : behind p f = Some p' -> f (ct_next p) = Some (ct_next p') /\ ct_ieo p' = ct_ieo p /\ ct_vec p' = ct_vec p /\ timers p' = timers p.
Proof. unfold behind. intro H. step H. injection H as <-. auto. Qed.
Lemma behind'_next {R} (p : ctc) f p' (r : R) : behind' p f = Some (p', r) ->
  f (ct_next p) = Some (ct_next p', r) /\ ct_ieo p' = ct_ieo p /\ ct_vec p' = ct_vec p /\ timers p' = timers p.
Proof. unfold behind'. intro H. step H. destruct p0. injection H as <- <-. auto. Qed.
(** What an event does to the devices behind, and whether the CTC is served. *)
Definition passed (o : bop) (x : ans) (p p' : ctc) : Prop :=
  (dev_do dv o (ct_next p) = Some (ct_next p', x) \/ may_stop o /\ ct_next p' = ct_next p) /\
  match o with
  | BReset _ => ct_ieo p' = false
  | BIrq _ => ct_ieo p' = ct_ieo p /\
      if ct_ieo p then ct_next p' = ct_next p /\ x = ALine false
      else if timers p' then ct_next p' = ct_next p /\ x = ALine true else dev_do dv o (ct_next p) = Some (ct_next p', x)
  | BAck _ _ => if timers p then ct_ieo p' = true /\ ct_next p' = ct_next p /\ exists v, x = AByte v /\ Z.land v 0xF8 = Z.land (ct_vec p) 0xF8 else ct_ieo p' = false /\ dev_do dv o (ct_next p) = Some (ct_next p', x)
  | BReti _ _ => ct_ieo p' = false /\ if ct_ieo p then ct_next p' = ct_next p /\ x = ANone else dev_do dv o (ct_next p) = Some (ct_next p', x)
  | _ => ct_ieo p' = ct_ieo p
  end /\
  (ct_vec p' = ct_vec p \/ exists q v t, o = BOut q v t /\ q mod 256 / 4 = 1 /\ Z.testbit v 0 = false /\ ct_vec p' = Z.land v 0xF8).
Lemma lor_vec v k : 0 <= k < 8 -> Z.land (Z.lor v k) 0xF8 = Z.land v 0xF8.
Proof.
  intro K. rewrite Z.land_lor_distr_l. replace (Z.land k 0xF8) with 0; [apply Z.lor_0_r|].
  assert (C := sweep (fun k => Z.land k 0xF8 =? 0) 8 eq_refl k K). cbn beta in C. lia.
Qed.
Lemma word_bit v t c g (w w' : W) c' : cc_write g v t c w = Some (c', w', false) -> Z.testbit v 0 = false.
Proof.
  unfold cc_write. destruct (Z.testbit v 0); [|reflexivity]. intro H. exfalso. cbv zeta in H.
  repeat match type of H with
  | (match ?x with Some _ => _ | None => None end) = Some _ => destruct x; [|discriminate H]
  | (if ?b then _ else _) = _ => destruct b
  | (let (_, _) := ?x in _) = _ => destruct x
  | Some _ = Some _ => discriminate H
  end.
Qed.
Lemma do_passed o p p' x : dev_do chip o p = Some (p', x) -> passed o x p p'.
Proof.
  destruct o as [t|t|t|n|q t|q v t|t|pc t|pc t]; cbn [dev_do RalCtcChip.chip ctc_dev dv_reset dv_frame_end dv_m1 dv_next_second dv_read_io dv_write_io dv_is_irq dv_irq_data dv_reti]; intro H; apply opt_inv in H as (a & E & H); injection H as -> ->; unfold passed; cbn [dev_do may_stop].
  - unfold ctc_reset in E. step E. apply all_four_next in E0 as (A & B & C). apply behind_next in E as (E1 & E2 & E3 & _). rewrite <- A, E1, E2, E3. auto.
  - unfold ctc_frame_end in E. step E. apply scan_next in E0 as (A & B & C). apply behind_next in E as (E1 & E2 & E3 & _). rewrite <- A, E1, E2, E3. auto.
  - unfold ctc_m1 in E. step E. apply scan_next in E0 as (A & B & C). apply behind_next in E as (E1 & E2 & E3 & _). rewrite <- A, E1, E2, E3. auto.
  - unfold ctc_second in E. step E. apply all_four_next in E0 as (A & B & C). apply behind_next in E as (E1 & E2 & E3 & _). rewrite <- A, E1, E2, E3. auto.
  - unfold ctc_read_io in E. destruct a as [p1 [v e]]. cbn [fst snd]. destruct (ctc_ports q) as (P0 & _ & _). rewrite P0 in E. destruct (Z.eqb_spec (q mod 256 / 4) 1) as [Q|Q].
    + step E. destruct p0 as [p2 v']. injection E as -> -> <-. apply one_of_next in E0 as (A & B & C). auto.
    + apply behind'_next in E as (E1 & E2 & E3 & _). rewrite E1. auto.
  - unfold ctc_write_io in E. destruct a as [p1 [v1 e]]. cbn [fst snd]. destruct (ctc_ports q) as (P0 & _ & _). rewrite P0 in E. destruct (Z.eqb_spec (q mod 256 / 4) 1) as [Q|Q].
    + step E. destruct p0 as [p2 b]. injection E as E <- <-. pose proof (one_of_next _ _ _ _ _ E0) as (A & B & C).
      destruct b; [subst p1; auto|]. subst p1. cbn [ct_next ct_ieo ct_vec]. split; [auto|]. split; [auto|]. right. exists q, v, t. split; [reflexivity|]. split; [exact Q|]. split; [|reflexivity].
      unfold one_of in E0. destruct (_ =? _), (_ =? _); step E0; destruct p0 as [[c w] r']; injection E0 as <- ->; exact (word_bit _ _ _ _ _ _ _ E).
    + apply behind'_next in E as (E1 & E2 & E3 & _). rewrite E1. auto.
  - unfold ctc_is_irq in E. destruct a as [p1 b]. cbn [fst snd]. destruct (ct_ieo p) eqn:O; [injection E as <- <-; rewrite O; auto 6|]. step E. apply scan_next in E0 as (A & B & C).
    fold (timers c) in E. destruct (timers c) eqn:Y.
    + injection E as <- <-. rewrite Y, A, B, C. auto 7.
    + apply behind'_next in E as (E1 & E2 & E3 & E4). rewrite E4, Y, <- A, E1, E2, E3, B, C. cbn [option_map fst snd]. auto 7.
  - unfold ctc_irq_data in E. destruct a as [p1 [v e]]. cbn [fst snd]. unfold timers.
    destruct (cc_int (ct_0 p)); [injection E as <- <- <-; cbn [orb ct_next ct_ieo ct_vec]; (split; [auto|]); (split; [|auto]); (split; [reflexivity|]); (split; [reflexivity|]); eexists; (split; [reflexivity|]); apply lor_vec; lia|].
    destruct (cc_int (ct_1 p)); [injection E as <- <- <-; cbn [orb ct_next ct_ieo ct_vec]; (split; [auto|]); (split; [|auto]); (split; [reflexivity|]); (split; [reflexivity|]); eexists; (split; [reflexivity|]); apply lor_vec; lia|].
    destruct (cc_int (ct_2 p)); [injection E as <- <- <-; cbn [orb ct_next ct_ieo ct_vec]; (split; [auto|]); (split; [|auto]); (split; [reflexivity|]); (split; [reflexivity|]); eexists; (split; [reflexivity|]); apply lor_vec; lia|].
    destruct (cc_int (ct_3 p)); [injection E as <- <- <-; cbn [orb ct_next ct_ieo ct_vec]; (split; [auto|]); (split; [|auto]); (split; [reflexivity|]); (split; [reflexivity|]); eexists; (split; [reflexivity|]); apply lor_vec; lia|].
    cbn [orb]. apply behind'_next in E as (E1 & E2 & E3 & _). cbn [ct_next ct_ieo ct_vec] in *. rewrite E1, E2, E3. cbn [option_map fst snd]. auto 7.
  - unfold ctc_reti in E. destruct a as [p1 u]. cbn [fst snd]. destruct (ct_ieo p) eqn:O; [injection E as <- <-; cbn [ct_next ct_ieo ct_vec]; auto 7|].
    apply behind'_next in E as (E1 & E2 & E3 & _). rewrite E1, E2, E3, O. cbn [option_map fst snd]. auto 7.
Qed.
Lemma ops_passed ops : forall p p' l, dev_ops chip ops p = Some (p', l) -> map fst l = ops /\
  exists l', passes l l' /\ dev_ops dv (map fst l') (ct_next p) = Some (ct_next p', l').
Proof.
  induction ops as [|o ops IH]; intros p p' l E; cbn [dev_ops] in E.
  - injection E as <- <-. split; [reflexivity|]. exists []. split; [constructor|reflexivity].
  - destruct (dev_do chip o p) as [[p1 x]|] eqn:E1; [|discriminate]. apply opt_inv in E as ([p2 l1] & E2 & E). injection E as -> ->. cbn [fst snd].
    apply IH in E2 as (M & l' & PS & E2). split; [cbn; now rewrite M|]. destruct (do_passed _ _ _ _ E1) as ([T|[T N]] & _).
    + exists ((o, x) :: l'). split; [now constructor|]. cbn [map fst dev_ops]. now rewrite T, E2.
    + exists l'. split; [now constructor|]. now rewrite <- N.
Qed.
End Through.

(** Sub-logs. *)
Lemma passes_forall (Q : bop -> Prop) l l' : passes l l' -> Forall Q (map fst l) -> Forall Q (map fst l').
Proof. induction 1; cbn [map fst]; intro F; [constructor|inversion F; subst; constructor; auto|inversion F; auto]. Qed.
Lemma passes_reads l l' : passes l l' -> a_reads l' = a_reads l.
Proof.
  induction 1 as [|e l l' P IH|o x l l' M P IH]; [reflexivity| |].
  - destruct e as [o x]. rewrite !a_reads_cons. now rewrite IH.
  - rewrite a_reads_cons, IH. destruct o as [t|t|t|n|p t|p v t|t|pc t|pc t]; cbn [may_stop] in M; try reflexivity.
    unfold reads1, a_reads. cbn [flat_map]. destruct x; try reflexivity. destruct (Z.eqb_spec (p mod 256) 8); [lia|]. destruct (Z.eqb_spec (p mod 256) 9); [lia|]. reflexivity.
Qed.
Lemma passes_writes l l' : passes l l' -> b_writes (map fst l') = b_writes (map fst l).
Proof.
  induction 1 as [|e l l' P IH|o x l l' M P IH]; [reflexivity| |].
  - cbn [map fst b_writes flat_map] in *. unfold b_writes in *. now rewrite IH.
  - cbn [map fst]. rewrite IH. unfold b_writes at 2. cbn [flat_map]. destruct o as [t|t|t|n|p t|p v t|t|pc t|pc t]; try reflexivity.
    cbn [may_stop] in M. cbn [word_to]. destruct (Z.eqb_spec (p mod 256) 10); [lia|reflexivity].
Qed.
Lemma passes_in o l l' : passes l l' -> ~ may_stop o -> In o (map fst l) -> In o (map fst l').
Proof. intros P N. induction P as [|e l l' P IH|o' x l l' M P IH]; cbn [map fst In]; [tauto|tauto|]. intros [->|H]; [tauto|auto]. Qed.

Section Chain.
Context {W S R D : Type} (g0 g1 g2 g3 : trig W) (slurp : S -> S * option Z) (flush : Z -> R -> R * bool) (dv : dev D).
Notation pd := (ral_pio slurp flush dv).
Notation chain := (chip g0 g1 g2 g3 pd).
Notation chip_st := (ctc W (pio (S * bool) (R * option Z) D)).
Definition port_asks (p : pio (S * bool) (R * option Z) D) : bool := ch_int (pio_a p) || ch_int (pio_b p).
Lemma port_served o (p p' : pio (S * bool) (R * option Z) D) x : dev_do pd o p = Some (p', x) ->
  match o with
  | BReset _ | BReti _ _ => pio_ieo p' = false
  | BAck _ _ => pio_ieo p' = if port_asks p then true else pio_ieo p
  | BIrq _ => pio_ieo p' = pio_ieo p /\ (pio_ieo p = true -> x = ALine false)
  | _ => pio_ieo p' = pio_ieo p
  end.
Proof.
  destruct o as [t|t|t|n|q t|q v t|t|pc t|pc t]; intro H.
  7: { cbn [dev_do ral_pio pio_dev dv_is_irq] in H. unfold pio_is_irq in H. apply opt_inv in H as (w & E & H). injection H as -> ->. destruct (pio_ieo p) eqn:O.
       - injection E as <-. auto.
       - split; [|discriminate]. destruct (chan_check _ _ _) as [a ia]. destruct ia; [now injection E as <-|]. destruct (chan_check _ _ _) as [b ib]. destruct ib; [now injection E as <-|].
         unfold map_next in E. apply opt_inv in E as (v & _ & ->). reflexivity. }
  7: { apply ack_cases in H. unfold port_asks. destruct (ch_int (pio_a p)); [destruct H as [-> _]; reflexivity|]. destruct (ch_int (pio_b p)); [destruct H as [-> _]; reflexivity|]. destruct H as (d & y & _ & -> & _). reflexivity. }
  7: { apply reti_done in H. tauto. }
  all: cbn [dev_do ral_pio pio_dev dv_reset dv_frame_end dv_m1 dv_next_second dv_read_io dv_write_io] in H; apply opt_inv in H as (w & E & H); injection H as -> ->.
  1,2,3,4: unfold pio_reset, pio_frame_end, pio_m1, pio_next_second, then_next in E; apply opt_inv in E as (v & _ & ->); reflexivity.
  - unfold pio_read_io in E. destruct (_ =? _); [destruct (_ =? 0)|]; unfold map_a, map_b, map_next in E; repeat (apply opt_inv in E as (? & E & ->)); reflexivity.
  - unfold pio_write_io in E. destruct (_ =? _); [destruct (_ =? 0)|]; unfold map_a, map_b, map_next in E; repeat (apply opt_inv in E as (? & E & ->)); reflexivity.
Qed.
Hypothesis SIL : forall t d d' b, dv_is_irq dv t d = Some (d', b) -> b = false.
Lemma port_line t (p p' : pio (S * bool) (R * option Z) D) : dev_do pd (BIrq t) p = Some (p', ALine true) -> pio_ieo p = false /\ port_asks p' = true.
Proof.
  intro H. cbn [dev_do ral_pio pio_dev dv_is_irq] in H. unfold pio_is_irq in H. apply opt_inv in H as (w & E & H). injection H as -> H. destruct (pio_ieo p) eqn:O; [injection E as <-; discriminate|]. split; [reflexivity|].
  destruct (check_ints (pio_input slurp) t (pio_a p)) as (_ & _ & _ & _ & _ & SA). destruct (check_ints (pio_output flush) t (pio_b p)) as (_ & _ & _ & _ & _ & SB).
  destruct (chan_check (pio_input slurp) t (pio_a p)) as [a ia]. cbn [fst snd] in SA. destruct ia; [injection E as <-; cbn; unfold port_asks; cbn [pio_a]; now rewrite <- SA|].
  destruct (chan_check (pio_output flush) t (pio_b p)) as [b ib]. cbn [fst snd] in SB. destruct ib; [injection E as <-; unfold port_asks; cbn [fst pio_b]; now rewrite <- SB, orb_true_r|].
  unfold map_next in E. apply opt_inv in E as ([d q] & E & ->). cbn [snd] in H. apply SIL in E. congruence.
Qed.
(** The line is active because of a channel of the CTC, or because of one of the PIO, which is not served. *)
Definition eager (p : chip_st) : Prop := ct_ieo p = false /\ (timers p = true \/ pio_ieo (ct_next p) = false /\ port_asks (ct_next p) = true).
Lemma line_eager t (p p' : chip_st) : dev_do chain (BIrq t) p = Some (p', ALine true) -> eager p' /\ served p' = served p /\ ct_ieo p = false.
Proof.
  intro H. destruct (do_passed _ _ _ _ _ _ _ _ _ H) as (_ & (A & B) & _). unfold eager, served. rewrite A. destruct (ct_ieo p); [destruct B; discriminate|]. destruct (timers p').
  - destruct B as [-> _]. auto.
  - pose proof (port_served _ _ _ _ B) as [C _]. apply port_line in B as [B1 B2]. rewrite C. auto.
Qed.
Lemma line_off t (p p' : chip_st) : dev_do chain (BIrq t) p = Some (p', ALine false) -> served p' = served p.
Proof.
  intro H. destruct (do_passed _ _ _ _ _ _ _ _ _ H) as (_ & (A & B) & _). unfold served. rewrite A. destruct (ct_ieo p); [now destruct B as [-> _]|]. destruct (timers p').
  - now destruct B.
  - pose proof (port_served _ _ _ _ B) as [C _]. now rewrite C.
Qed.
Lemma reti_tail pc t (p p' : chip_st) x : dev_do chain (BReti pc t) p = Some (p', x) -> served p' = tl (served p) /\ x = ANone.
Proof.
  intro H. destruct (do_passed _ _ _ _ _ _ _ _ _ H) as (_ & (A & B) & _). unfold served. rewrite A. destruct (ct_ieo p); [destruct B as [-> ->]; auto|].
  apply reti_done in B as (B1 & B2 & _). rewrite B2. destruct (pio_ieo (ct_next p)); auto.
Qed.
Definition flags (p : chip_st) : list bool := map (fun a => snd (fst a)) (asks p).
Ltac parts := (split; [reflexivity|]); (split; [reflexivity|]); (split; [reflexivity|]); split; reflexivity.
Lemma ack_eager pc t (p p' : chip_st) x : eager p -> dev_do chain (BAck pc t) p = Some (p', x) ->
  exists i lv v, nth_error (asks p) i = Some (lv, true, v) /\ x = AByte v /\ flags p' = repeat false (Datatypes.S i) ++ skipn (Datatypes.S i) (flags p) /\
    firstn i (flags p) = repeat false i /\ served p' = lv :: served p.
Proof.
  intros (I & EG) H. pose proof (do_passed _ _ _ _ _ _ _ _ _ H) as (_ & A & _). unfold served. rewrite I.
  cbn [dev_do RalCtcChip.chip ctc_dev dv_irq_data] in H. apply opt_inv in H as (w & E & H). injection H as -> ->. unfold ctc_irq_data in E. unfold timers in *. unfold flags, asks.
  destruct (cc_int (ct_0 p)) eqn:F0; [injection E as <-; exists 0%nat, Timers; eexists; cbn; rewrite ?F0; parts|].
  destruct (cc_int (ct_1 p)) eqn:F1; [injection E as <-; exists 1%nat, Timers; eexists; cbn; rewrite ?F0, ?F1; parts|].
  destruct (cc_int (ct_2 p)) eqn:F2; [injection E as <-; exists 2%nat, Timers; eexists; cbn; rewrite ?F0, ?F1, ?F2; parts|].
  destruct (cc_int (ct_3 p)) eqn:F3; [injection E as <-; exists 3%nat, Timers; eexists; cbn; rewrite ?F0, ?F1, ?F2, ?F3; parts|].
  destruct EG as [EG|(PI & EG)]; [discriminate|]. rewrite PI. cbn [orb] in A. clear A. unfold behind' in E. cbn [ct_next ct_hint ct_vec ct_0 ct_1 ct_2 ct_3 ct_ieo ct_lines] in E.
  step E. destruct p0 as [d y]. injection E as <-. unfold port_asks in EG.
  cbn [ral_pio pio_dev dv_irq_data] in E0. unfold pio_irq_data in E0. destruct (ch_int (pio_a (ct_next p))) eqn:F4.
  - injection E0 as <- <-. exists 4%nat, Port. eexists. cbn. rewrite F0, F1, F2, F3, ?F4. parts.
  - cbn [orb] in EG. rewrite EG in E0. injection E0 as <- <-. exists 5%nat, Port. eexists. cbn. rewrite F0, F1, F2, F3, ?F4, ?EG. parts.
Qed.
Lemma other_served o (p p' : chip_st) x : dev_do chain o p = Some (p', x) -> (forall t, o <> BIrq t) -> (forall pc t, o <> BAck pc t) -> (forall pc t, o <> BReti pc t) ->
  served p' = if is_reset o then [] else served p.
Proof.
  intros H N1 N2 N3. destruct (do_passed _ _ _ _ _ _ _ _ _ H) as (A & B & _). unfold served.
  destruct o as [t|t|t|n|q t|q v t|t|pc t|pc t]; try (now elim (N1 t)); try (now elim (N2 pc t)); try (now elim (N3 pc t)); rewrite B; cbn [is_reset];
    destruct A as [A|[A A']]; try contradiction; try (rewrite A'; reflexivity); apply port_served in A; rewrite A; reflexivity.
Qed.
Lemma served_nested ops : forall seen p p' l, dev_ops chain ops p = Some (p', l) -> granted seen l -> (seen = true -> eager p) -> nested (served p) l (served p').
Proof.
  assert (TN : forall p : chip_st, ct_ieo p = false -> ~ In Timers (served p)).
  { intros p I. unfold served. rewrite I. destruct (pio_ieo _); cbn; intuition discriminate. }
  induction ops as [|o ops IH]; intros seen p p' l E G EG; cbn [dev_ops] in E; [injection E as <- <-; constructor|].
  destruct (dev_do chain o p) as [[p1 x]|] eqn:E1; [|discriminate]. apply opt_inv in E as ([p2 l1] & E2 & E). injection E as -> ->. cbn [fst snd] in *. destruct G as [G1 G2].
  destruct o as [t|t|t|n|q t|q v t|t|pc t|pc t].
  1,2,3,4,5,6: pose proof (other_served _ _ _ _ E1 ltac:(discriminate) ltac:(discriminate) ltac:(discriminate)) as SV; cbn [is_reset] in SV;
    specialize (IH _ _ _ _ E2 G2 ltac:(discriminate)); rewrite SV in IH; constructor; auto; discriminate.
  - destruct (do_goes g0 g1 g2 g3 pd 0 _ _ _ _ (or_introl eq_refl) E1) as (_ & _). destruct x as [|v|[|]].
    1,2: exfalso; cbn [dev_do RalCtcChip.chip ctc_dev dv_is_irq] in E1; apply opt_inv in E1 as (w & _ & E1); discriminate.
    + pose proof (line_eager _ _ _ E1) as (A1 & A2 & A3). specialize (IH _ _ _ _ E2 G2 (fun _ => A1)). rewrite A2 in IH. constructor; auto.
    + pose proof (line_off _ _ _ E1) as A2. specialize (IH _ _ _ _ E2 G2 ltac:(discriminate)). rewrite A2 in IH. constructor; auto.
  - destruct (ack_eager _ _ _ _ _ (EG G1) E1) as (i & lv & v & _ & -> & _ & _ & SV). specialize (IH _ _ _ _ E2 G2 ltac:(discriminate)). rewrite SV in IH. destruct lv.
    + apply n_timers; auto. apply TN. apply (EG G1).
    + assert (NS : served p = []). { unfold served in *. destruct (ct_ieo p), (pio_ieo (ct_next p)), (ct_ieo p1), (pio_ieo (ct_next p1)); discriminate || reflexivity. }
      rewrite NS in *. apply n_port. exact IH.
  - destruct (reti_tail _ _ _ _ _ E1) as [SV ->]. specialize (IH _ _ _ _ E2 G2 ltac:(discriminate)). rewrite SV in IH. constructor. exact IH.
Qed.
Lemma both_ended (p p' : chip_st) pc1 t1 pc2 t2 l : dev_ops chain [BReti pc1 t1; BReti pc2 t2] p = Some (p', l) -> served p' = [].
Proof.
  intro E. cbn [dev_ops] in E. destruct (dev_do chain (BReti pc1 t1) p) as [[q1 y1]|] eqn:D1; [|discriminate]. destruct (dev_do chain (BReti pc2 t2) q1) as [[q2 y2]|] eqn:D2; [|discriminate].
  cbn [option_map fst snd] in E. injection E as <- _. destruct (reti_tail _ _ _ _ _ D1) as [A1 _]. destruct (reti_tail _ _ _ _ _ D2) as [A2 _]. rewrite A2, A1. unfold served. destruct (ct_ieo p), (pio_ieo _); reflexivity.
Qed.
End Chain.

(** How many are served. *)
Definition fair (st : list level) : Prop := st = [] \/ st = [Port] \/ st = [Timers] \/ st = [Timers; Port].
Lemma nested_open st l st' : nested st l st' -> fair st -> fair st' /\ length st' = open (length st) l.
Proof.
  induction 1 as [st|st t l st' N IH|st t l st' NT N IH|st pc t v l st' NT N IH|pc t v l st' N IH|st pc t x l st' N IH|st t x l st' N IH|st o x l st' N1 N2 N3 N4 N IH]; intro F; cbn [open].
  - auto.
  - auto.
  - auto.
  - apply IH. destruct F as [->|[->|[->| ->]]]; cbn in NT |- *; unfold fair; tauto.
  - apply IH. unfold fair. auto.
  - replace (pred (length st)) with (length (tl st)) by now destruct st. apply IH. destruct F as [->|[->|[->| ->]]]; cbn; unfold fair; auto.
  - apply IH. unfold fair. auto.
  - destruct o as [t|t|t|n|q t|q v t|t|pc t|pc t]; try discriminate N4; auto; [now elim (N2 pc t)|now elim (N3 pc t)].
Qed.
Lemma nested_app l1 : forall l2 st st', nested st (l1 ++ l2) st' -> exists st1, nested st l1 st1 /\ nested st1 l2 st'.
Proof.
  induction l1 as [|e l1 IH]; intros l2 st st' N; cbn [app] in N; [exists st; split; [constructor|exact N]|].
  inversion N; subst; match goal with H : nested _ (l1 ++ l2) _ |- _ => apply IH in H as (s1 & A & B) end; exists s1; (split; [constructor; solve [auto]|exact B]).
Qed.
Lemma at_most_two st l st' l1 t b l2 : nested st l st' -> fair st -> l = l1 ++ (BIrq t, ALine b) :: l2 -> (open (length st) l1 <= 2)%nat /\ (open (length st) l1 = 2%nat -> b = false).
Proof.
  intros N F ->. apply nested_app in N as (s1 & A & B). destruct (nested_open _ _ _ A F) as [F1 L]. rewrite <- L. split; [destruct F1 as [->|[->|[->| ->]]]; cbn; lia|].
  intro L2. destruct b; [|reflexivity]. exfalso. assert (T : In Timers s1) by (destruct F1 as [->|[->|[->| ->]]]; cbn in *; auto; discriminate).
  inversion B; subst; [contradiction|]. match goal with H : forall t, _ <> BIrq t |- _ => now elim (H t) end.
Qed.
Lemma fair_served {W S R D} (p : ctc W (pio (S * bool) (R * option Z) D)) : fair (served p).
Proof. unfold fair, served. destruct (ct_ieo p), (pio_ieo _); auto. Qed.

(** The PIO behind the CTC does what it does alone. *)
Section Paced.
Context {W D : Type} (g0 g1 g2 g3 : trig W) (dv : dev D).
Lemma ops_paced vb ops : forall g p p' l, dev_ops (chip g0 g1 g2 g3 dv) ops p = Some (p', l) -> Forall (away_from vb) ops -> Z.land (ct_vec p) 0xF8 <> Z.land vb 0xF8 -> paced vb g l ->
  exists l', passes l l' /\ dev_ops dv (map fst l') (ct_next p) = Some (ct_next p', l') /\ paced vb g l'.
Proof.
  induction ops as [|o ops IH]; intros g p p' l E F V P; cbn [dev_ops] in E.
  - injection E as <- <-. exists []. split; [constructor|]. split; reflexivity.
  - destruct (dev_do _ o p) as [[p1 x]|] eqn:E1; [|discriminate]. apply opt_inv in E as ([p2 l1] & E2 & E). injection E as -> ->. cbn [fst snd]. inversion F as [|? ? F1 F2]; subst.
    destruct (do_passed _ _ _ _ _ _ _ _ _ E1) as (T & B & C).
    assert (V1 : Z.land (ct_vec p1) 0xF8 <> Z.land vb 0xF8).
    { destruct C as [->|(q & v & t & -> & Q & K & ->)]; [exact V|]. cbn [away_from] in F1. rewrite <- Z.land_assoc. change (Z.land 0xF8 0xF8) with 0xF8. auto. }
    assert (PP : exists g', paced vb g' l1 /\ forall l', paced vb g' l' -> paced vb g ((o, x) :: l')).
    { cbn [paced] in P |- *. destruct (word_to 10 o); [exists false; tauto|]. destruct o, x; eauto. }
    assert (T' : dev_do dv o (ct_next p) = Some (ct_next p1, x) \/ may_stop o /\ ct_next p1 = ct_next p /\ forall pc t v, o = BAck pc t -> x = AByte v -> v <> vb).
    { destruct T as [T|[T N]]; [auto|]. destruct o as [t|t|t|n|q t|q v t|t|pc t|pc t]; try (right; split; [exact T|]; split; [exact N|discriminate]).
      destruct (timers p); [|tauto]. right. split; [exact T|]. split; [exact N|]. intros pc' t' v _ ->. destruct B as (_ & _ & v' & [= <-] & L). congruence. }
    clear T. destruct T' as [T|(T & N & NV)].
    + destruct PP as (g' & PP1 & PP2). destruct (IH _ _ _ _ E2 F2 V1 PP1) as (l' & A1 & A2 & A3). exists ((o, x) :: l'). split; [now constructor|]. split; [|auto]. cbn [map fst dev_ops]. now rewrite T, A2.
    + assert (P1 : paced vb g l1).
      { cbn [paced] in P. destruct o as [t|t|t|n|q t|q v t|t|pc t|pc t]; cbn [may_stop word_to] in *; try contradiction; try exact P.
        - destruct (Z.eqb_spec (q mod 256) 10); [lia|exact P].
        - destruct x as [|v|b]; try exact P. specialize (NV _ _ v eq_refl eq_refl). destruct (Z.eqb_spec v vb); [contradiction|]. now rewrite orb_false_r in P. }
      destruct (IH _ _ _ _ E2 F2 V1 P1) as (l' & A1 & A2 & A3). exists l'. split; [now constructor|]. rewrite <- N. auto.
Qed.
End Paced.

Section Input.
Context {W S R D : Type} (g0 g1 g2 g3 : trig W) (slurp : S -> S * option Z) (flush : Z -> R -> R * bool) (dv : dev D).
Notation pd := (ral_pio (taped slurp) flush dv).
Notation chain := (chip g0 g1 g2 g3 pd).
Notation chip_st := (ctc W (pio ((S * list Z) * bool) (R * option Z) D)).
Lemma to_port o k v (p p' : chip_st) x : 8 <= k < 12 -> word_to k o = Some v -> dev_do chain o p = Some (p', x) -> dev_do pd o (ct_next p) = Some (ct_next p', x).
Proof.
  intros K WT H. destruct (do_passed _ _ _ _ _ _ _ _ _ H) as ([A|[A _]] & _); [exact A|]. exfalso.
  destruct o; try discriminate. cbn [word_to may_stop] in *. destruct (Z.eqb_spec (p0 mod 256) k); [lia|discriminate].
Qed.
Lemma chain_input o x (p0 p p' : chip_st) ops l :
  (exists s r d, ct_next p = ral_pio_new s r d) \/
    dev_do chain o p0 = Some (p, x) /\ byte_op o /\ (is_reset o = true \/ exists v, word_to 9 o = Some v /\ selects 1 v) ->
  dev_ops chain ops p = Some (p', l) -> Forall (fun o => is_reset o = false /\ forall v, word_to 9 o = Some v -> mode_word v = false) ops ->
  exists first sent, snd (fst (ch_dev (pio_a (ct_next p')))) = snd (fst (ch_dev (pio_a (ct_next p)))) ++ sent /\ heard first sent (a_reads l).
Proof.
  intros ST E F. destruct (ops_passed _ _ _ _ _ _ _ _ _ E) as (M & l' & PS & E'). rewrite <- (passes_reads _ _ PS). rewrite <- M in F. apply (passes_forall _ _ _ PS) in F.
  refine (input_heard _ _ _ slurp flush dv o x (ct_next p0) _ _ _ _ _ E' F). destruct ST as [ST|(ST & BO & K)]; [left; exact ST|right]. split; [|auto].
  destruct K as [K|(v & K & _)]; [|exact (to_port _ 9 _ _ _ _ ltac:(lia) K ST)]. destruct (do_passed _ _ _ _ _ _ _ _ _ ST) as ([A|[A _]] & _); [exact A|]. destruct o; try discriminate; contradiction.
Qed.
Lemma asks_timers (p : chip_st) : (forall v, ~ In (Timers, true, v) (asks p)) -> timers p = false.
Proof.
  unfold asks, timers. intro H. destruct (cc_int (ct_0 p)); [elim (H (Z.lor (ct_vec p) 0)); cbn; auto|]. destruct (cc_int (ct_1 p)); [elim (H (Z.lor (ct_vec p) 2)); cbn; auto|].
  destruct (cc_int (ct_2 p)); [elim (H (Z.lor (ct_vec p) 4)); cbn; auto|]. destruct (cc_int (ct_3 p)); [elim (H (Z.lor (ct_vec p) 6)); cbn; auto|]. reflexivity.
Qed.
(** After two RETIs neither is served. *)
Lemma two_retis pc1 t1 pc2 t2 ops (p p' : chip_st) l : dev_ops chain (BReti pc1 t1 :: BReti pc2 t2 :: ops) p = Some (p', l) -> exists p1 l', dev_ops chain ops p1 = Some (p', l') /\
  l = (BReti pc1 t1, ANone) :: (BReti pc2 t2, ANone) :: l' /\ ct_ieo p1 = false /\ pio_ieo (ct_next p1) = false /\ pio_a (ct_next p1) = pio_a (ct_next p) /\ pio_b (ct_next p1) = pio_b (ct_next p).
Proof.
  intro E. cbn [dev_ops] in E. destruct (dev_do chain (BReti pc1 t1) p) as [[q1 y1]|] eqn:D1; [|discriminate]. destruct (dev_do chain (BReti pc2 t2) q1) as [[q2 y2]|] eqn:D2; [|discriminate].
  destruct (dev_ops chain ops q2) as [[q3 l']|] eqn:D3; [|discriminate]. cbn [option_map fst snd] in E. injection E as <- <-. exists q2, l'. split; [exact D3|].
  destruct (reti_tail _ _ _ _ _ _ _ _ _ _ _ _ D1) as [A1 ->]. destruct (reti_tail _ _ _ _ _ _ _ _ _ _ _ _ D2) as [A2 ->]. split; [reflexivity|].
  rewrite A1 in A2. assert (I : ct_ieo q2 = false /\ pio_ieo (ct_next q2) = false).
  { unfold served in A2. destruct (ct_ieo p), (pio_ieo (ct_next p)), (ct_ieo q2), (pio_ieo (ct_next q2)); try discriminate A2; auto. }
  destruct I as [I1 I2]. split; [exact I1|]. split; [exact I2|].
  assert (K : forall pc t q q' y, dev_do chain (BReti pc t) q = Some (q', y) -> pio_a (ct_next q') = pio_a (ct_next q) /\ pio_b (ct_next q') = pio_b (ct_next q)).
  { intros pc t q q' y H. destruct (do_passed _ _ _ _ _ _ _ _ _ H) as ([A|[_ ->]] & _); [|auto]. apply reti_done in A. tauto. }
  destruct (K _ _ _ _ _ D1) as [<- <-]. exact (K _ _ _ _ _ D2).
Qed.
Lemma chain_request o0 x0 (p0 p1 p2 p3 p4 p5 : chip_st) ops l o x ops2 l2 pc1 t1 pc2 t2 t3 l3 :
  dev_do chain o0 p0 = Some (p1, x0) -> byte_op o0 -> turns_on 8 o0 -> dev_ops chain ops p1 = Some (p2, l) ->
  Forall (fun o => byte_op o /\ ~ turns_off 8 o) ops -> (exists t, In (BM1 t) ops) ->
  dev_do chain o p2 = Some (p3, x) -> snd (fst (ch_dev (pio_a (ct_next p3)))) <> snd (fst (ch_dev (pio_a (ct_next p2)))) ->
  dev_ops chain ops2 p3 = Some (p4, l2) -> Forall (fun o => byte_op o /\ ~ turns_off 8 o /\ (forall pc t, o <> BAck pc t) /\ forall v, word_to 9 o = Some v -> vector_word v = false) ops2 ->
  dev_ops chain [BReti pc1 t1; BReti pc2 t2; BIrq t3] p4 = Some (p5, l3) -> map snd l3 = [ANone; ANone; ALine true] /\
  forall pc t p6 y, dev_do chain (BAck pc t) p5 = Some (p6, y) -> (forall v, ~ In (Timers, true, v) (asks p5)) -> y = AByte (ch_vec (pio_a (ct_next p2))).
Proof.
  intros E0 BO T E F M1 E2 TP E3 F3 E4. pose proof T as (v0 & W0 & _). apply (to_port _ 9 v0) in E0; [|lia|exact W0].
  destruct (ops_passed _ _ _ _ _ _ _ _ _ E) as (M & l' & PS & E'). rewrite <- M in F, M1. apply (passes_forall _ _ _ PS) in F.
  assert (M1' : exists t, In (BM1 t) (map fst l')) by (destruct M1 as [t M1]; exists t; exact (passes_in (BM1 t) _ _ PS (fun H => H) M1)).
  destruct (do_passed _ _ _ _ _ _ _ _ _ E2) as ([A2|[_ A2]] & _); [|now rewrite A2 in TP].
  destruct (ops_passed _ _ _ _ _ _ _ _ _ E3) as (M3 & l2' & PS3 & E3'). rewrite <- M3 in F3. apply (passes_forall _ _ _ PS3) in F3.
  destruct (requested_flag _ _ _ _ _ _ _ _ _ _ _ _ _ _ _ _ E0 BO T E' F M1' A2 TP E3' F3) as [J1 J2]. clear - E4 J1 J2.
  apply two_retis in E4 as (q & lq & E4 & -> & I1 & I2 & A & B). cbn [dev_ops] in E4. destruct (dev_do chain (BIrq t3) q) as [[q1 y1]|] eqn:D1; [|discriminate]. cbn [option_map fst snd] in E4. injection E4 as <- <-. cbn [map snd].
  destruct (do_passed _ _ _ _ _ _ _ _ _ D1) as (_ & (C1 & C2) & _). rewrite I1 in C2.
  destruct (check_ints (pio_input (taped slurp)) t3 (pio_a (ct_next p4))) as (_ & _ & V & C & _ & CS). specialize (C J1).
  destruct (timers q1) eqn:TM.
  - destruct C2 as [_ ->]. split; [reflexivity|]. intros pc t p6 y _ NT. apply asks_timers in NT. congruence.
  - cbn [dev_do ral_pio pio_dev dv_is_irq] in C2. unfold pio_is_irq in C2. rewrite I2, A in C2. destruct (chan_check (pio_input (taped slurp)) t3 (pio_a (ct_next p4))) as [a ia]. cbn [fst snd] in *. subst ia. rewrite C in C2.
    injection C2 as C2 <-. split; [reflexivity|]. intros pc t p6 y H _. destruct (do_passed _ _ _ _ _ _ _ _ _ H) as (_ & K & _). rewrite TM in K. destruct K as [_ K].
    apply ack_cases in K. rewrite <- C2 in K. cbn [pio_a] in K. rewrite C in K. destruct K as [_ ->]. congruence.
Qed.
End Input.
Section Output.
Context {W S R D : Type} (g0 g1 g2 g3 : trig W) (slurp : S -> S * option Z) (flush : Z -> R -> R * bool) (dv : dev D).
Notation pd := (ral_pio slurp (taped_sink flush) dv).
Notation chain := (chip g0 g1 g2 g3 pd).
Notation chip_st := (ctc W (pio (S * bool) ((R * list Z) * option Z) D)).
Lemma chain_output o x (p0 p p' : chip_st) ops l : let vb := ch_vec (pio_b (ct_next p0)) in
  dev_do chain o p0 = Some (p, x) -> (exists v, word_to 11 o = Some v /\ selects 0 v) -> byte_op o ->
  snd (ch_dev (pio_b (ct_next p0))) = None -> ch_int (pio_b (ct_next p0)) = false -> ch_vec (pio_a (ct_next p0)) <> vb -> Z.land (ct_vec p0) 0xF8 <> Z.land vb 0xF8 ->
  (forall pc t d d' y, dv_irq_data dv pc t d = Some (d', y) -> fst y <> vb) ->
  dev_ops chain ops p = Some (p', l) -> Forall plain ops -> Forall (away_from vb) ops -> paced vb true l ->
  exists sent, snd (fst (ch_dev (pio_b (ct_next p')))) = snd (fst (ch_dev (pio_b (ct_next p)))) ++ sent /\ b_writes ops = sent ++ held (snd (ch_dev (pio_b (ct_next p')))).
Proof.
  intros vb E0 K BO PN IB VA VC VD E F FA P. destruct (ops_passed _ _ _ _ _ _ _ _ _ E) as (M & _).
  assert (V : Z.land (ct_vec p) 0xF8 <> Z.land vb 0xF8 /\ dev_do pd o (ct_next p0) = Some (ct_next p, x)).
  { destruct K as (v & K & _). destruct o as [t|t|t|n|q t|q u t|t|pc t|pc t]; try discriminate. cbn [word_to] in K. destruct (do_passed _ _ _ _ _ _ _ _ _ E0) as (A & _ & B).
    destruct (Z.eqb_spec (q mod 256) 11); [|discriminate]. destruct B as [->|(q' & u' & t' & [= <- <- <-] & Q & _)]; [|lia]. split; [exact VC|]. destruct A as [A|[A _]]; [exact A|]. cbn [may_stop] in A. lia. }
  destruct V as [V E0']. destruct (ops_paced _ _ _ _ _ vb _ _ _ _ _ E FA V P) as (l' & PS & E' & P').
  rewrite <- M in F |- *. rewrite <- (passes_writes _ _ PS). apply (passes_forall _ _ _ PS) in F.
  exact (output_sent _ _ _ slurp flush dv o x (ct_next p0) (ct_next p) (ct_next p') (map fst l') l' E0' K BO PN IB VA VD E' F P').
Qed.
End Output.
