(** C57: the chain of devices in the machine. *)
From Coq Require Import ZArith Bool List Lia.
From Verif Require Import Base Parse Cpu Flavours Prog Trace Exec Clock SpecState SpecIsa SpecRal SpecRunner RalMemory RalBus RalRunner IsaLink
  RalPio SpecPio RalPioProofs RalCtc SpecCtc RalCtcProofs RalCtcChip SpecChain RalChain SpecDrive RalDrive.
Import ListNotations.
Open Scope Z_scope.

Lemma pio_waitless {S R D} slurp flush (dv : dev D) : waitless dv -> waitless (@ral_pio S R D slurp flush dv).
Proof.
  intros (W1 & W2 & W3). split; [|split]; cbn [dv_read_io dv_write_io dv_irq_data ral_pio pio_dev]; intros.
  - unfold pio_read_io in H. destruct (_ =? _).
    + unfold map_a, map_b in H. destruct (Z.land p PIO_CHANNEL =? 0); destruct (chan_read _ _ _); try discriminate H; injection H as _ _ <-; reflexivity.
    + unfold map_next in H. destruct (dv_read_io _ _ _ _) as [[d1 [v1 w1]]|] eqn:E; [|discriminate H]. injection H as _ _ <-. exact (W1 _ _ _ _ _ _ E).
  - unfold pio_write_io in H. destruct (_ =? _).
    + unfold map_a, map_b, unit_ in H. destruct (Z.land p PIO_CHANNEL =? 0); match type of H with context [option_map _ (option_map _ (option_map _ ?x))] => destruct x end; try discriminate H; injection H as _ _ <-; reflexivity.
    + unfold map_next in H. destruct (dv_write_io _ _ _ _ _) as [[d1 [v1 w1]]|] eqn:E; [|discriminate H]. injection H as _ _ <-. exact (W2 _ _ _ _ _ _ _ E).
  - unfold pio_irq_data in H. destruct (ch_int _); [injection H as _ _ <-; reflexivity|]. destruct (ch_int _); [injection H as _ _ <-; reflexivity|].
    unfold map_next in H. destruct (dv_irq_data _ _ _ _) as [[d1 [v1 w1]]|] eqn:E; [|discriminate H]. injection H as _ _ <-. exact (W3 _ _ _ _ _ _ E).
Qed.
Lemma ctc_waitless {D} (dv : dev D) : waitless dv -> waitless (ral_ctc dv).
Proof.
  intros (W1 & W2 & W3). split; [|split]; cbn [dv_read_io dv_write_io dv_irq_data ral_ctc ctc_dev]; intros.
  - unfold ctc_read_io in H. destruct (_ =? _).
    + destruct (one_of _ _ _ _ _ _ _ _ _) as [[? ?]|]; [|discriminate H]. injection H as _ _ <-. reflexivity.
    + apply behind'_next in H as (E & _). exact (W1 _ _ _ _ _ _ E).
  - unfold ctc_write_io in H. destruct (_ =? _).
    + destruct (one_of _ _ _ _ _ _ _ _ _) as [[? ?]|]; [|discriminate H]. injection H as _ _ <-. reflexivity.
    + apply behind'_next in H as (E & _). exact (W2 _ _ _ _ _ _ _ E).
  - unfold ctc_irq_data in H. do 4 (destruct (cc_int _) in H; [injection H as _ _ <-; reflexivity|]). apply behind'_next in H as (E & _). exact (W3 _ _ _ _ _ _ E).
Qed.
Lemma resets_none ops : resets ops = 0%nat -> Forall (fun o => is_reset o = false) ops.
Proof. unfold resets. induction ops as [|o ops IH]; intro H; constructor; cbn [filter] in H; destruct (is_reset o); try discriminate H; auto. Qed.
Lemma new_served {S R D} ext s r (d : D) (p : ctc (line * line) (pio (S * bool) (R * option Z) D)) : ral_ctc_new ext (ral_pio_new s r d) = Some p -> served p = [].
Proof. unfold ral_ctc_new. destruct (line_new ext); [|discriminate]. intros [= <-]. reflexivity. Qed.

Section M.
Context {Q T D : Type} (FL : Flavour Q) (ch : SpecIsa.chip T) (absq : Q -> T).
Hypothesis OK : chip_ok FL ch absq.
Context {R S : Type} (slurp : S -> S * option Z) (flush : Z -> R -> R * bool) (dv : dev D).
Hypothesis WL : waitless dv.
Notation chain := (ral_ctc (ral_pio (taped slurp) flush dv)).
Notation tape p := (snd (fst (ch_dev (pio_a (ct_next p))))).
Lemma reset_tape t p p' x : dev_do chain (BReset t) p = Some (p', x) -> tape p' = tape p.
Proof.
  intro H. destruct (do_passed _ _ _ _ _ _ _ _ _ H) as ([E|[[] _]] & _). cbn [dev_do] in E. unfold ral_pio in E. cbn [pio_dev dv_reset] in E. unfold pio_reset, then_next in E.
  destruct (dv_reset dv t _); [|discriminate E]. cbn [option_map] in E. injection E as E _. rewrite <- E. reflexivity.
Qed.
Lemma machine_chain da hz ext fhz r bs fuel c m p w w' : runner_new ext fhz hz = Some r -> 0 <= fhz -> 33 <= hz -> 11 <= hz / fhz -> 2 * hz + hz / fhz + 33 < 2 ^ 32 ->
  runner_start FL chain (mkWorld r c (Some (m, p))) = Done w -> session FL da chain fuel bs w = Done w' ->
  exists m' p' ops la, w_bus w' = Some (m', p') /\ dev_ops chain (BReset hz :: ops) p = Some (p', la) /\
    ((forall t d d' b, dv_is_irq dv t d = Some (d', b) -> b = false) -> nested (served p) la (served p')) /\
    (resets_in bs = 0%nat -> (forall o v, In o ops -> word_to 9 o = Some v -> mode_word v = false) -> exists first sent, tape p' = tape p ++ sent /\ heard first sent (a_reads la)).
Proof.
  intros N F0 HZ HF HT ES E.
  destruct (machine_told FL ch absq OK da chain hz (ctc_waitless _ (pio_waitless _ _ _ WL)) ext fhz r bs fuel c m p w w' N F0 HZ HF HT ES E) as (m' & p' & ops & la & B & O & IT & CK & G & PR & FE & RS).
  exists m', p', ops, la. split; [exact B|]. split; [exact O|]. split.
  - intro SIL. exact (served_nested _ _ _ _ _ flush dv SIL _ false p p' la O G ltac:(discriminate)).
  - intros R0 MW. cbn [dev_ops] in O. destruct (dev_do chain (BReset hz) p) as [[p1 x]|] eqn:E1; [|discriminate O]. destruct (dev_ops chain ops p1) as [[p2 l1]|] eqn:E2; [|discriminate O].
    cbn [option_map fst snd] in O. injection O as -> <-. rewrite <- (reset_tape _ _ _ _ E1).
    change (a_reads ((BReset hz, x) :: l1)) with (a_reads l1).
    refine (chain_input _ _ _ _ slurp flush dv (BReset hz) x p p1 p' ops l1 (or_intror (conj E1 (conj I (or_introl eq_refl)))) E2 _).
    apply Forall_forall. intros o IN. split; [exact (proj1 (Forall_forall _ _) (resets_none ops (eq_trans RS R0)) o IN)|]. intros v. exact (MW o v IN).
Qed.
End M.
