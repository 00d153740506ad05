(** Proofs about the whole CTC of the example computer: what happens to one channel. *)
From Coq Require Import ZArith Bool List Lia.
From Verif Require Import Base RalBus RalPio SpecPio RalPioProofs RalCtc SpecCtc RalCtcProofs.
Import ListNotations.
Open Scope Z_scope.
Ltac Zify.zify_post_hook ::= Z.div_mod_to_equations.

Lemma ctc_ports p : (Z.land p CTC_MASK =? CTC_BITS) = ((p mod 256) / 4 =? 1) /\ (Z.land p CTC_CS1 =? 0) = Z.even ((p mod 256) / 2) /\
  (Z.land p CTC_CS0 =? 0) = Z.even (p mod 256).
Proof.
  unfold CTC_MASK, CTC_BITS, CTC_CS1, CTC_CS0. rewrite !(small_land p) by lia.
  assert (H : 0 <= p mod 256 < 256) by lia. revert H. generalize (p mod 256). intros b H.
  assert (C := sweep (fun b => eqb (Z.land b 0xFC =? 4) (b / 4 =? 1) && eqb (Z.land b 2 =? 0) (Z.even (b / 2)) && eqb (Z.land b 1 =? 0) (Z.even b)) 256 eq_refl b H).
  cbn beta in C. apply andb_prop in C as [C C3]. apply andb_prop in C as [C1 C2]. now rewrite (eqb_prop _ _ C1), (eqb_prop _ _ C2), (eqb_prop _ _ C3).
Qed.

Section Chip.
Context {W D : Type} (g0 g1 g2 g3 : trig W) (dv : dev D).
Definition chip := ctc_dev g0 g1 g2 g3 dv CTC_MASK CTC_BITS CTC_CS1 CTC_CS0.
Definition trg (i : Z) : trig W := if i =? 0 then g0 else if i =? 1 then g1 else if i =? 2 then g2 else g3.
Definition chan_no (i : Z) : Prop := i = 0 \/ i = 1 \/ i = 2 \/ i = 3.
Notation ctc := (ctc W D).

(** Looking at the channels. *)
Definition scanned (i t : Z) (p p' : ctc) : Prop :=
  if ct_hint p <=? t then
    (if (cc_hint (ct_chan i p) <=? t) || (ct_hint p =? 0) then exists w w', process (trg i) t (ct_chan i p) w = Some (ct_chan i p', w') else ct_chan i p' = ct_chan i p) /\
    ct_hint p' <= cc_hint (ct_chan i p')
  else ct_chan i p' = ct_chan i p /\ ct_hint p' = ct_hint p.
Lemma scan i t p p' : chan_no i -> process_channels g0 g1 g2 g3 t p = Some p' -> scanned i t p p' /\ ct_ieo p' = ct_ieo p /\ ct_vec p' = ct_vec p /\ ct_next p' = ct_next p.
Proof.
  intros I H. unfold process_channels in H. unfold scanned. destruct (ct_hint p <=? t); [|injection H as ->; auto].
  step H. destruct p0 as [c0 w0]. step H. destruct p0 as [c1 w1]. step H. destruct p0 as [c2 w2]. step H. destruct p0 as [c3 w3]. injection H as <-.
  cbn [ct_hint ct_vec ct_0 ct_1 ct_2 ct_3 ct_ieo ct_lines ct_next]. split; [|auto]. 
  destruct I as [->|[->|[->| ->]]]; unfold ct_chan, trg; cbn [Z.eqb Pos.eqb ct_0 ct_1 ct_2 ct_3]; (split; [|lia]).
  - destruct (_ || _); [eauto|congruence].
  - destruct (_ || _) in E0 |- *; [eauto|congruence].
  - destruct (_ || _) in E1 |- *; [eauto|congruence].
  - destruct (_ || _) in E2 |- *; [eauto|congruence].
Qed.
Definition looked (i t : Z) (p p' : ctc) : Prop := exists w w', process (trg i) t (ct_chan i p) w = Some (ct_chan i p', w').
Definition same (i : Z) (p p' : ctc) : Prop := ct_chan i p' = ct_chan i p /\ ct_hint p' = ct_hint p.
(** What a single event does to channel [i]. *)
Definition goes (i : Z) (o : bop) (x : ans) (p p' : ctc) : Prop :=
  match o with
  | BReset t => ct_hint p' = 0 /\ ct_ieo p' = false /\ exists w w', cc_reset (trg i) t (ct_chan i p) w = Some (ct_chan i p', w')
  | BFrame t | BM1 t => scanned i t p p' /\ ct_ieo p' = ct_ieo p
  | BSecond n => ct_hint p' = shrink n (ct_hint p) /\ ct_ieo p' = ct_ieo p /\ exists w w', cc_second (trg i) n (ct_chan i p) w = Some (ct_chan i p', w')
  | BIn q t => ct_ieo p' = ct_ieo p /\ if q mod 256 =? 4 + i then ct_hint p' = ct_hint p /\ looked i t p p' /\ x = AByte (cc_cur (ct_chan i p')) else same i p p'
  | BOut q v t => ct_ieo p' = ct_ieo p /\ if q mod 256 =? 4 + i then ct_hint p' = ct_hint p /\ exists w w' b, cc_write (trg i) v t (ct_chan i p) w = Some (ct_chan i p', w', b) else same i p p'
  | BIrq t => ct_ieo p' = ct_ieo p /\ if ct_ieo p then p' = p /\ x = ALine false else scanned i t p p' /\ (cc_int (ct_chan i p') = true -> x = ALine true)
  | BAck _ _ => ct_hint p' = ct_hint p /\ (ct_chan i p' = ct_chan i p \/ ct_chan i p' = set_int false (ct_chan i p))
  | BReti _ _ => same i p p' /\ (ct_ieo p = true -> ct_ieo p' = false) /\ (ct_ieo p = false -> ct_ieo p' = false)
  end.
Lemma port_case i q : chan_no i -> (q mod 256 =? 4 + i) = (q mod 256 / 4 =? 1) && (if Z.even (q mod 256 / 2) then if Z.even (q mod 256) then i =? 0 else i =? 1 else if Z.even (q mod 256) then i =? 2 else i =? 3).
Proof.
  intro I. assert (B : 0 <= q mod 256 < 256) by lia. revert B. generalize (q mod 256). intros b B. clear q.
  assert (C := sweep (fun b => forallb (fun i => eqb (b =? 4 + i) ((b / 4 =? 1) && (if Z.even (b / 2) then if Z.even b then i =? 0 else i =? 1 else if Z.even b then i =? 2 else i =? 3))) [0; 1; 2; 3]) 256 eq_refl b B).
  cbn beta in C. eapply forallb_forall in C; [apply eqb_prop, C|]. destruct I as [->|[->|[->| ->]]]; cbn; auto.
Qed.
Lemma behind_chan i (p : ctc) f p' : behind p f = Some p' -> ct_chan i p' = ct_chan i p /\ ct_hint p' = ct_hint p /\ ct_ieo p' = ct_ieo p.
Proof. unfold behind. intro H. step H. injection H as <-. auto. Qed.
Lemma behind'_chan {R} i (p : ctc) f p' (r : R) : behind' p f = Some (p', r) -> ct_chan i p' = ct_chan i p /\ ct_hint p' = ct_hint p /\ ct_ieo p' = ct_ieo p.
Proof. unfold behind'. intro H. step H. destruct p0. injection H as <- <-. auto. Qed.
Lemma all_four_chan i (p : ctc) f h ieo p' : chan_no i -> all_four g0 g1 g2 g3 p f h ieo = Some p' -> (exists w w', f (trg i) (ct_chan i p) w = Some (ct_chan i p', w')) /\ ct_hint p' = h /\ ct_ieo p' = ieo.
Proof.
  intros I H. unfold all_four in H. step H. destruct p0 as [c0 w0]. step H. destruct p0 as [c1 w1]. step H. destruct p0 as [c2 w2]. step H. destruct p0 as [c3 w3]. injection H as <-.
  split; [|auto]. destruct I as [->|[->|[->| ->]]]; unfold ct_chan, trg; cbn [Z.eqb Pos.eqb ct_0 ct_1 ct_2 ct_3]; eauto.
Qed.
Lemma one_of_chan {R} i q (p : ctc) (f : trig W -> cchan -> W -> option (cchan * W * R)) p' r : chan_no i -> q mod 256 / 4 = 1 -> one_of g0 g1 g2 g3 CTC_CS1 CTC_CS0 q p f = Some (p', r) ->
  ct_hint p' = ct_hint p /\ ct_ieo p' = ct_ieo p /\ if q mod 256 =? 4 + i then exists w w', f (trg i) (ct_chan i p) w = Some (ct_chan i p', w', r) else ct_chan i p' = ct_chan i p.
Proof.
  intros I Q H. unfold one_of in H. destruct (ctc_ports q) as (_ & P1 & P2). rewrite P1, P2 in H. rewrite (port_case i q I), Q.
  destruct (Z.even (q mod 256 / 2)), (Z.even (q mod 256)); step H; destruct p0 as [[c w] r']; injection H as <- <-; (split; [reflexivity|]); (split; [reflexivity|]);
    destruct I as [->|[->|[->| ->]]]; cbn [Z.eqb Pos.eqb andb]; unfold ct_chan, trg; cbn [Z.eqb Pos.eqb ct_0 ct_1 ct_2 ct_3]; eauto.
Qed.
Lemma do_goes i o p p' x : chan_no i -> dev_do chip o p = Some (p', x) -> goes i o x p p'.
Proof.
  intro I. destruct o as [t|t|t|n|q t|q v t|t|pc t|pc t]; cbn [dev_do chip ctc_dev dv_reset dv_frame_end dv_m1 dv_next_second dv_read_io dv_write_io dv_is_irq dv_irq_data dv_reti goes]; intro H; apply opt_inv in H as (a & E & H); injection H as -> ->.
  - unfold ctc_reset in E. step E. apply (all_four_chan i) in E0 as (A & B & C); [|exact I]. apply (behind_chan i) in E as (E1 & E2 & E3). rewrite E1, E2, E3. auto.
  - unfold ctc_frame_end in E. step E. apply (scan i) in E0 as (A & B & _); [|exact I]. apply (behind_chan i) in E as (E1 & E2 & E3). unfold scanned in *. rewrite E1, E2, E3. auto.
  - unfold ctc_m1 in E. step E. apply (scan i) in E0 as (A & B & _); [|exact I]. apply (behind_chan i) in E as (E1 & E2 & E3). unfold scanned in *. rewrite E1, E2, E3. auto.
  - unfold ctc_second in E. step E. apply (all_four_chan i) in E0 as (A & B & C); [|exact I]. apply (behind_chan i) in E as (E1 & E2 & E3). rewrite E1, E2, E3. auto.
  - unfold ctc_read_io in E. destruct a as [p1 [v e]]. cbn [fst snd]. destruct (ctc_ports q) as (P0 & _ & _). rewrite P0 in E. destruct (Z.eqb_spec (q mod 256 / 4) 1) as [Q|Q].
    + step E. destruct p0 as [p2 v']. injection E as -> -> <-. apply (one_of_chan i) in E0 as (A & B & C); [|exact I|exact Q]. split; [exact B|]. destruct (q mod 256 =? 4 + i); [|split; assumption].
      destruct C as (w & w' & C). unfold read_counter in C. step C. destruct p0 as [c w1]. injection C as C1 _ C3. split; [exact A|]. unfold looked. rewrite <- C1. split; [exists w, w1; exact E|now rewrite C3].
    + apply (behind'_chan i) in E as (E1 & E2 & E3). split; [exact E3|]. destruct (Z.eqb_spec (q mod 256) (4 + i)); [exfalso; destruct I as [->|[->|[->| ->]]]; lia|split; assumption].
  - unfold ctc_write_io in E. destruct a as [p1 [v1 e]]. cbn [fst snd]. destruct (ctc_ports q) as (P0 & _ & _). rewrite P0 in E. destruct (Z.eqb_spec (q mod 256 / 4) 1) as [Q|Q].
    + step E. destruct p0 as [p2 b]. injection E as E <- <-. apply (one_of_chan i) in E0 as (A & B & C); [|exact I|exact Q].
      assert (ct_hint p1 = ct_hint p2 /\ ct_ieo p1 = ct_ieo p2 /\ ct_chan i p1 = ct_chan i p2) as (X1 & X2 & X3) by (destruct b; subst p1; auto).
      unfold same. rewrite X1, X2, X3. split; [exact B|]. destruct (q mod 256 =? 4 + i); [|split; assumption]. destruct C as (w & w' & C). split; [exact A|]. exists w, w', b. exact C.
    + apply (behind'_chan i) in E as (E1 & E2 & E3). split; [exact E3|]. destruct (Z.eqb_spec (q mod 256) (4 + i)); [exfalso; destruct I as [->|[->|[->| ->]]]; lia|split; assumption].
  - unfold ctc_is_irq in E. destruct a as [p1 b]. cbn [fst snd]. destruct (ct_ieo p) eqn:O; [injection E as <- <-; auto|]. step E. apply (scan i) in E0 as (A & B & _); [|exact I].
    destruct (_ || _) eqn:Y in E.
    + injection E as <- <-. split; [congruence|]. split; [exact A|reflexivity].
    + apply (behind'_chan i) in E as (E1 & E2 & E3). split; [congruence|]. unfold scanned in *. rewrite E1, E2. split; [exact A|]. intro Z0. exfalso.
      destruct I as [->|[->|[->| ->]]]; unfold ct_chan in Z0; cbn [Z.eqb Pos.eqb] in Z0; rewrite Z0, ?orb_true_r in Y; discriminate.
  - unfold ctc_irq_data in E. destruct a as [p1 [v e]]. cbn [fst snd].
    destruct (cc_int (ct_0 p)); [injection E as <- <- <-; split; [reflexivity|]; destruct I as [->|[->|[->| ->]]]; auto|].
    destruct (cc_int (ct_1 p)); [injection E as <- <- <-; split; [reflexivity|]; destruct I as [->|[->|[->| ->]]]; auto|].
    destruct (cc_int (ct_2 p)); [injection E as <- <- <-; split; [reflexivity|]; destruct I as [->|[->|[->| ->]]]; auto|].
    destruct (cc_int (ct_3 p)); [injection E as <- <- <-; split; [reflexivity|]; destruct I as [->|[->|[->| ->]]]; auto|].
    apply (behind'_chan i) in E as (E1 & E2 & E3). auto.
  - unfold ctc_reti in E. destruct a as [p1 u]. cbn [fst snd]. destruct (ct_ieo p) eqn:O; [injection E as <- <-; repeat split; discriminate|].
    apply (behind'_chan i) in E as (E1 & E2 & E3). split; [split; assumption|]. split; congruence.
Qed.
End Chip.
