(** Programs on the bus of the RAL 1243. *)
From Coq Require Import ZArith Bool List Lia.
From Verif Require Import Base Parse Prog Trace RalMemory RalBus SpecRal RalMemProofs IsaRun.
Import ListNotations.
Open Scope Z_scope.
Ltac Zify.zify_post_hook ::= Z.div_mod_to_equations.

Lemma port_land p : (Z.land (u16 p) 255 =? 124) = memory_port p.
Proof.
  unfold memory_port. change 255 with (Z.ones 8). rewrite Z.land_ones by lia. unfold u16. f_equal.
  change (2 ^ 8) with 256. lia.
Qed.

Section B.
Context {D : Type} (dv : dev D) (limit : Z) (rom : list Z) (kb : Z).
Notation H := (ral_host 255 124 dv limit).
Notation matches := (matches rom kb).

(** After a panic nothing happens any more. *)
Lemma panicked {A} (p : prog Z unit unit A) : forall c x b' c' l, runl H p None c = Some (x, b', c', l) -> b' = None.
Proof.
  induction p as [a| |k IH|a k IH|a n k IH|a k IH|a k IH|a k IH|a n k IH|k IH|a t k IH|a v t k IH|t k IH|a t k IH|a t k IH
    |a t k IH|a t k IH|a i t k IH|a v t k IH|a k IH|d k IH]; intros c x b' c' l E; cbn [runl] in E.
  - now injection E.
  - discriminate.
  - apply cons_log_inv in E. destruct E as (l1 & E & ->). now apply IH in E.
  - cbn in E. apply cons_log_inv in E. destruct E as (l1 & E & ->). now apply IH in E.
  - apply cons_log_inv in E. destruct E as (l1 & E & ->). now apply IH in E.
  - cbn in E. apply cons_log_inv in E. destruct E as (l1 & E & ->). now apply IH in E.
  - cbn in E. apply cons_log_inv in E. destruct E as (l1 & E & ->). now apply IH in E.
  - cbn in E. apply cons_log_inv in E. destruct E as (l1 & E & ->). now apply IH in E.
  - apply cons_log_inv in E. destruct E as (l1 & E & ->). now apply IH in E.
  - cbn in E. apply cons_log_inv in E. destruct E as (l1 & E & ->). now apply IH in E.
  - cbn [h_read_io ral_host] in E. unfold bus_read_io in E. destruct (_ =? _); cbn in E; apply cons_log_inv in E; destruct E as (l1 & E & ->); now apply IH in E.
  - cbn [h_write_io ral_host] in E. unfold bus_write_io in E. destruct (_ =? _); cbn in E; apply cons_log_inv in E; destruct E as (l1 & E & ->); now apply IH in E.
  - cbn in E. apply cons_log_inv in E. destruct E as (l1 & E & ->). now apply IH in E.
  - cbn in E. apply cons_log_inv in E. destruct E as (l1 & E & ->). now apply IH in E.
  - cbn in E. apply cons_log_inv in E. destruct E as (l1 & E & ->). now apply IH in E.
  - cbn in E. apply cons_log_inv in E. destruct E as (l1 & E & ->). now apply IH in E.
  - cbn in E. apply cons_log_inv in E. destruct E as (l1 & E & ->). now apply IH in E.
  - cbn in E. apply cons_log_inv in E. destruct E as (l1 & E & ->). now apply IH in E.
  - cbn in E. apply cons_log_inv in E. destruct E as (l1 & E & ->). now apply IH in E.
  - cbn in E. apply cons_log_inv in E. destruct E as (l1 & E & ->). now apply IH in E.
  - apply cons_log_inv in E. destruct E as (l1 & E & ->). now apply IH in E.
Qed.

Lemma u16_range a : 0 <= u16 a < 0x10000. Proof. unfold u16. lia. Qed.
Lemma op_ok h m o : matches h m -> allowed h o -> exists m', mem_op o m = Some (m', answer rom kb h o) /\ matches (o :: h) m'.
Proof. apply mem_op_ok. Qed.
Lemma dev_step {A} m (d : D) (f : D -> option (D * A)) dflt b x : on_dev (Some (m, d)) dflt f = (b, x) -> b = None \/ exists d', b = Some (m, d').
Proof. unfold on_dev. destruct (f d) as [[d' y]|]; intros [= <- <-]; eauto. Qed.

Lemma run_mem {A} (p : prog Z unit unit A) : forall h m d c x m' d' c' l, matches h m ->
  runl H p (Some (m, d)) c = Some (x, Some (m', d'), c', l) -> log_mem rom kb h l /\ matches (history l h) m'.
Proof.
  induction p as [a| |k IH|a k IH|a n k IH|a k IH|a k IH|a k IH|a n k IH|k IH|a t k IH|a v t k IH|t k IH|a t k IH|a t k IH
    |a t k IH|a t k IH|a i t k IH|a v t k IH|a k IH|dd k IH]; intros h m d c x m' d' c' l M E; cbn [runl] in E.
  - injection E as _ <- _ _ <-. now split.
  - discriminate.
  - apply cons_log_inv in E. destruct E as (l1 & E & ->). exact (IH _ _ _ _ _ _ _ _ _ _ M E).
  - cbn in E. apply cons_log_inv in E. destruct E as (l1 & E & ->). exact (IH _ _ _ _ _ _ _ _ _ _ M E).
  - apply cons_log_inv in E. destruct E as (l1 & E & ->). exact (IH _ _ _ _ _ _ _ _ _ M E).
  - cbn in E. apply cons_log_inv in E. destruct E as (l1 & E & ->). exact (IH _ _ _ _ _ _ _ _ _ _ M E).
  - cbn in E. apply cons_log_inv in E. destruct E as (l1 & E & ->). exact (IH _ _ _ _ _ _ _ _ _ _ M E).
  - cbn in E. apply cons_log_inv in E. destruct E as (l1 & E & ->). exact (IH _ _ _ _ _ _ _ _ _ _ M E).
  - apply cons_log_inv in E. destruct E as (l1 & E & ->). exact (IH _ _ _ _ _ _ _ _ _ M E).
  - cbn in E. apply cons_log_inv in E. destruct E as (l1 & E & ->). exact (IH _ _ _ _ _ _ _ _ _ _ M E).
  - cbn [h_read_io ral_host] in E. unfold bus_read_io in E. rewrite port_land in E. cbn [log_mem history]. destruct (memory_port a) eqn:P.
    + cbv zeta in E. cbn [fst snd] in E. apply cons_log_inv in E. destruct E as (l1 & E & ->).
      cbn [log_mem history]. destruct (IH _ _ _ _ _ _ _ _ _ _ _ M E) as [I1 I2]. split; [|exact I2]. split; [|exact I1].
      intros _. split; [|reflexivity]. unfold read_ctrl. rewrite (mt_sel _ _ _ _ M). apply Z.mod_small. exact (mt_selr _ _ _ _ M).
    + destruct (on_dev _ _ _) as [b y] eqn:F. apply cons_log_inv in E. destruct E as (l1 & E & ->).
      destruct (dev_step _ _ _ _ _ _ F) as [->|[d1 ->]]; [apply panicked in E; discriminate|].
      destruct (IH _ _ _ _ _ _ _ _ _ _ _ M E) as [I1 I2]. cbn [log_mem history]. split; [|exact I2]. split; [|exact I1]. congruence.
  - cbn [h_write_io ral_host] in E. unfold bus_write_io in E. rewrite port_land in E. destruct (memory_port a) eqn:P.
    + cbn [option_map fst snd] in E. apply cons_log_inv in E. destruct E as (l1 & E & ->).
      destruct (op_ok h m (MSelect (u8 v)) M) as (m1 & E1 & M1). { cbn. unfold u8. lia. }
      cbn [mem_op] in E1. injection E1 as <-. destruct (IH _ _ _ _ _ _ _ _ _ _ _ M1 E) as [I1 I2]. cbn [log_mem history]. rewrite P.
      split; [|exact I2]. split; [reflexivity|]. split; [reflexivity|exact I1].
    + destruct (on_dev _ _ _) as [b y] eqn:F. apply cons_log_inv in E. destruct E as (l1 & E & ->).
      destruct (dev_step _ _ _ _ _ _ F) as [->|[d1 ->]]; [apply panicked in E; discriminate|].
      cbn [log_mem history]. rewrite P. exact (IH _ _ _ _ _ _ _ _ _ _ _ M E).
  - cbn [h_is_irq ral_host] in E. destruct (on_dev _ _ _) as [b y] eqn:F. apply cons_log_inv in E. destruct E as (l1 & E & ->).
    destruct (dev_step _ _ _ _ _ _ F) as [->|[d1 ->]]; [apply panicked in E; discriminate|]. exact (IH _ _ _ _ _ _ _ _ _ _ M E).
  - cbn [h_irq_data ral_host] in E. destruct (on_dev _ _ _) as [b y] eqn:F. apply cons_log_inv in E. destruct E as (l1 & E & ->).
    destruct (dev_step _ _ _ _ _ _ F) as [->|[d1 ->]]; [apply panicked in E; discriminate|]. exact (IH _ _ _ _ _ _ _ _ _ _ _ M E).
  - cbn [h_reti ral_host] in E. destruct (on_dev _ _ _) as [b y] eqn:F. apply cons_log_inv in E. destruct E as (l1 & E & ->).
    destruct (dev_step _ _ _ _ _ _ F) as [->|[d1 ->]]; [apply panicked in E; discriminate|]. exact (IH _ _ _ _ _ _ _ _ _ _ M E).
  - cbn [h_read_mem ral_host on_mem] in E. unfold m_read_mem in E. rewrite (read_debug_ok _ _ h m _ M (u16_range a)) in E.
    cbn [option_map] in E. apply cons_log_inv in E. destruct E as (l1 & E & ->).
    destruct (IH _ _ _ _ _ _ _ _ _ _ M E) as [I1 I2]. cbn [log_mem history]. split; [|exact I2]. now split.
  - cbn [h_read_mem16 ral_host on_mem] in E. rewrite (read_mem16_ok _ _ h m _ M (u16_range a)) in E.
    cbn [option_map] in E. apply cons_log_inv in E. destruct E as (l1 & E & ->).
    destruct (IH _ _ _ _ _ _ _ _ _ _ M E) as [I1 I2]. cbn [log_mem history]. split; [|exact I2]. split; [|exact I1].
    unfold u16. replace ((a mod 65536 + 1) mod 65536) with ((a + 1) mod 65536) by lia. reflexivity.
  - cbn [h_read_opcode ral_host] in E. unfold bus_read_opcode, on_dev' in E. destruct (dv_m1 dv t d) as [d1|]; [|cbn [on_mem] in E; apply cons_log_inv in E; destruct E as (l1 & E & ->); apply panicked in E; discriminate].
    destruct (op_ok h m (MFetch (u16 a)) M (u16_range a)) as (m1 & E1 & M1). cbn [on_mem] in E. cbn [mem_op] in E1. rewrite E1 in E.
    apply cons_log_inv in E. destruct E as (l1 & E & ->). destruct (IH _ _ _ _ _ _ _ _ _ _ M1 E) as [I1 I2]. cbn [log_mem history].
    split; [|exact I2]. cbv zeta. split; [reflexivity|exact I1].
  - cbn [h_write_mem ral_host option_map fst snd] in E. apply cons_log_inv in E. destruct E as (l1 & E & ->).
    destruct (op_ok h m (MWrite (u16 a) (u8 v)) M (u16_range a)) as (m1 & E1 & M1). cbn [mem_op] in E1. injection E1 as <-.
    exact (IH _ _ _ _ _ _ _ _ _ M1 E).
  - cbn [h_read_debug ral_host on_mem] in E. rewrite (read_debug_ok _ _ h m _ M (u16_range a)) in E.
    cbn [option_map] in E. apply cons_log_inv in E. destruct E as (l1 & E & ->).
    destruct (IH _ _ _ _ _ _ _ _ _ _ M E) as [I1 I2]. cbn [log_mem history]. split; [|exact I2]. now split.
  - apply cons_log_inv in E. destruct E as (l1 & E & ->). exact (IH _ _ _ _ _ _ _ _ _ M E).
Qed.

Lemma dev_calm {A} m (d : D) (f : D -> option (D * A)) dflt b x : (forall d, f d <> None) -> on_dev (Some (m, d)) dflt f = (b, x) ->
  exists d', b = Some (m, d').
Proof. intros C. unfold on_dev. destruct (f d) as [[d' y]|] eqn:F; [intros [= <- <-]; eauto|now apply C in F]. Qed.
Lemma run_calm {A} (p : prog Z unit unit A) : calm dv -> forall h m d c x b c' l, matches h m ->
  runl H p (Some (m, d)) c = Some (x, b, c', l) -> exists m' d', b = Some (m', d').
Proof.
  intros (C1 & C2 & C3 & C4 & C5 & C6).
  induction p as [a| |k IH|a k IH|a n k IH|a k IH|a k IH|a k IH|a n k IH|k IH|a t k IH|a v t k IH|t k IH|a t k IH|a t k IH
    |a t k IH|a t k IH|a i t k IH|a v t k IH|a k IH|dd k IH]; intros h m d c x b' c' l M E; cbn [runl] in E.
  - injection E as _ <- _ <-. eauto.
  - discriminate.
  - apply cons_log_inv in E. destruct E as (l1 & E & ->). exact (IH _ _ _ _ _ _ _ _ _ M E).
  - cbn in E. apply cons_log_inv in E. destruct E as (l1 & E & ->). exact (IH _ _ _ _ _ _ _ _ _ M E).
  - apply cons_log_inv in E. destruct E as (l1 & E & ->). exact (IH _ _ _ _ _ _ _ _ M E).
  - cbn in E. apply cons_log_inv in E. destruct E as (l1 & E & ->). exact (IH _ _ _ _ _ _ _ _ _ M E).
  - cbn in E. apply cons_log_inv in E. destruct E as (l1 & E & ->). exact (IH _ _ _ _ _ _ _ _ _ M E).
  - cbn in E. apply cons_log_inv in E. destruct E as (l1 & E & ->). exact (IH _ _ _ _ _ _ _ _ _ M E).
  - apply cons_log_inv in E. destruct E as (l1 & E & ->). exact (IH _ _ _ _ _ _ _ _ M E).
  - cbn in E. apply cons_log_inv in E. destruct E as (l1 & E & ->). exact (IH _ _ _ _ _ _ _ _ _ M E).
  - cbn [h_read_io ral_host] in E. unfold bus_read_io in E. destruct (_ =? _).
    + cbv zeta in E. cbn [fst snd] in E. apply cons_log_inv in E. destruct E as (l1 & E & ->). exact (IH _ _ _ _ _ _ _ _ _ _ M E).
    + destruct (on_dev _ _ _) as [b y] eqn:F. apply cons_log_inv in E. destruct E as (l1 & E & ->).
      apply dev_calm in F; [|auto]. destruct F as [d1 ->]. exact (IH _ _ _ _ _ _ _ _ _ _ M E).
  - cbn [h_write_io ral_host] in E. unfold bus_write_io in E. destruct (_ =? _).
    + cbn [option_map fst snd] in E. apply cons_log_inv in E. destruct E as (l1 & E & ->).
      destruct (op_ok h m (MSelect (u8 v)) M) as (m1 & E1 & M1). { cbn. unfold u8. lia. }
      cbn [mem_op] in E1. injection E1 as <-. exact (IH _ _ _ _ _ _ _ _ _ _ M1 E).
    + destruct (on_dev _ _ _) as [b y] eqn:F. apply cons_log_inv in E. destruct E as (l1 & E & ->).
      apply dev_calm in F; [|auto]. destruct F as [d1 ->]. exact (IH _ _ _ _ _ _ _ _ _ _ M E).
  - cbn [h_is_irq ral_host] in E. destruct (on_dev _ _ _) as [b y] eqn:F. apply cons_log_inv in E. destruct E as (l1 & E & ->).
    apply dev_calm in F; [|auto]. destruct F as [d1 ->]. exact (IH _ _ _ _ _ _ _ _ _ M E).
  - cbn [h_irq_data ral_host] in E. destruct (on_dev _ _ _) as [b y] eqn:F. apply cons_log_inv in E. destruct E as (l1 & E & ->).
    apply dev_calm in F; [|auto]. destruct F as [d1 ->]. exact (IH _ _ _ _ _ _ _ _ _ _ M E).
  - cbn [h_reti ral_host] in E. destruct (on_dev _ _ _) as [b y] eqn:F. apply cons_log_inv in E. destruct E as (l1 & E & ->).
    apply dev_calm in F; [|auto]. destruct F as [d1 ->]. exact (IH _ _ _ _ _ _ _ _ _ M E).
  - cbn [h_read_mem ral_host on_mem] in E. unfold m_read_mem in E. rewrite (read_debug_ok _ _ h m _ M (u16_range a)) in E.
    cbn [option_map] in E. apply cons_log_inv in E. destruct E as (l1 & E & ->). exact (IH _ _ _ _ _ _ _ _ _ M E).
  - cbn [h_read_mem16 ral_host on_mem] in E. rewrite (read_mem16_ok _ _ h m _ M (u16_range a)) in E.
    cbn [option_map] in E. apply cons_log_inv in E. destruct E as (l1 & E & ->). exact (IH _ _ _ _ _ _ _ _ _ M E).
  - cbn [h_read_opcode ral_host] in E. unfold bus_read_opcode, on_dev' in E. destruct (dv_m1 dv t d) as [d1|] eqn:F; [|now apply C1 in F].
    destruct (op_ok h m (MFetch (u16 a)) M (u16_range a)) as (m1 & E1 & M1). cbn [on_mem] in E. cbn [mem_op] in E1. rewrite E1 in E.
    apply cons_log_inv in E. destruct E as (l1 & E & ->). exact (IH _ _ _ _ _ _ _ _ _ M1 E).
  - cbn [h_write_mem ral_host option_map fst snd] in E. apply cons_log_inv in E. destruct E as (l1 & E & ->).
    destruct (op_ok h m (MWrite (u16 a) (u8 v)) M (u16_range a)) as (m1 & E1 & M1). cbn [mem_op] in E1. injection E1 as <-.
    exact (IH _ _ _ _ _ _ _ _ M1 E).
  - cbn [h_read_debug ral_host on_mem] in E. rewrite (read_debug_ok _ _ h m _ M (u16_range a)) in E.
    cbn [option_map] in E. apply cons_log_inv in E. destruct E as (l1 & E & ->). exact (IH _ _ _ _ _ _ _ _ _ M E).
  - apply cons_log_inv in E. destruct E as (l1 & E & ->). exact (IH _ _ _ _ _ _ _ _ M E).
Qed.
End B.

(** The kernel page stays what it is while no instruction is fetched from the ROM. *)
Lemma history_private l : Forall not_from_rom l -> forall h, in_rom h = false ->
  in_rom (history l h) = false /\ forall a, kernel_page (history l h) a = kernel_page h a.
Proof.
  induction 1 as [|e l He _ IH]; intros h I; [now split|].
  destruct e; cbn [history]; try (now apply IH).
  - destruct (memory_port p); [|now apply IH]. destruct (IH (MSelect (d mod 256) :: h) I) as [I1 I2]. split; [exact I1|exact I2].
  - destruct (IH (MFetch (a mod 65536) :: h)) as [I1 I2]. { cbn. apply Z.ltb_ge. exact He. } split; [exact I1|exact I2].
  - destruct (IH (MWrite (a mod 65536) (v mod 256) :: h) I) as [I1 I2]. split; [exact I1|]. intro b. rewrite I2. cbn [kernel_page]. now rewrite I.
Qed.

(** ** Together *)
Lemma NoDup_front {X} (a b : list X) : NoDup (a ++ b) -> NoDup a.
Proof.
  induction a as [|x a IH]; intro H; [constructor|]. cbn in H. inversion H as [|? ? H1 H2]; subst. constructor; [|now apply IH].
  intro I. apply H1. apply in_or_app. now left.
Qed.
Section Reached.
Variables (rom : list Z) (kb : Z) (m0 m : ralmem) (l : list mop) (r : list Z).
Hypothesis (K : 0 <= kb) (N : mem_new rom kb = Some m0) (A : all_allowed [] l) (R : mem_run l m0 = Some (m, r)).
Lemma reached : matches rom kb (rev l) m.
Proof.
  destruct (mem_run_ok rom kb l [] m0 (matches_new _ _ _ K N) A) as (m1 & E & M). rewrite R in E. injection E as <- _.
  now rewrite app_nil_r in M.
Qed.
Lemma further l2 : all_allowed (rev l) l2 -> exists m2, mem_run l2 m = Some (m2, answers rom kb (rev l) l2).
Proof. intro A2. destruct (mem_run_ok rom kb l2 _ _ reached A2) as (m2 & E & _). eauto. Qed.
Lemma bus_run {D X} (dv : dev D) limit (p : prog Z unit unit X) d c x m' d' c' log :
  runl (ral_host 255 124 dv limit) p (Some (m, d)) c = Some (x, Some (m', d'), c', log) ->
  log_mem rom kb (rev l) log /\
  forall l2, all_allowed (history log (rev l)) l2 -> exists m2, mem_run l2 m' = Some (m2, answers rom kb (history log (rev l)) l2).
Proof.
  intro E. destruct (run_mem dv limit rom kb p _ _ _ _ _ _ _ _ _ reached E) as [L M]. split; [exact L|].
  intros l2 A2. destruct (mem_run_ok rom kb l2 _ _ M A2) as (m2 & E2 & _). eauto.
Qed.
Lemma bus_calm {D X} (dv : dev D) limit (p : prog Z unit unit X) d c x b c' log : calm dv ->
  runl (ral_host 255 124 dv limit) p (Some (m, d)) c = Some (x, b, c', log) -> exists m' d', b = Some (m', d').
Proof. intros C E. exact (run_calm dv limit rom kb p C _ _ _ _ _ _ _ _ reached E). Qed.
Lemma kernel_private {D X} (dv : dev D) limit (p : prog Z unit unit X) d c x m' d' c' log :
  runl (ral_host 255 124 dv limit) p (Some (m, d)) c = Some (x, Some (m', d'), c', log) ->
  in_rom (rev l) = false -> Forall not_from_rom log -> forall a, 0x2000 <= a < 0x4000 ->
  exists v w k k', mem_run [MFetch 0; MRead a] m = Some (k, [v; w]) /\ mem_run [MFetch 0; MRead a] m' = Some (k', [v; w]).
Proof.
  intros E I F a Ha. destruct (run_mem dv limit rom kb p _ _ _ _ _ _ _ _ _ reached E) as [L M].
  assert (A2 : forall h, all_allowed h [MFetch 0; MRead a]) by (intro h; cbn; lia).
  destruct (mem_run_ok rom kb _ _ _ reached (A2 _)) as (k & E1 & _). destruct (mem_run_ok rom kb _ _ _ M (A2 _)) as (k' & E2 & _).
  destruct (history_private _ F _ I) as [_ P]. exists (answer rom kb (rev l) (MFetch 0)), (kernel_page (rev l) a), k, k'.
  assert (S : forall h, answers rom kb h [MFetch 0; MRead a] = [nth 0 rom 255; kernel_page h a]).
  { intro h. cbn [answers answer]. do 2 f_equal. unfold view. destruct (Z.ltb_spec a 0x2000); [lia|]. destruct (Z.ltb_spec a 0x4000); [|lia].
    reflexivity. }
  rewrite E1, E2, !S, P. now split.
Qed.
Lemma attach_many boxes : NoDup (map rb_id (cartridges (rev l) ++ boxes)) ->
  let n := Nat.min (length boxes) (256 - length (cartridges (rev l))) in
  exists m', attach_exroms boxes m = Some (m', Z.of_nat n) /\
    forall l2, let h := rev (map MInsert (firstn n boxes)) ++ rev l in
      all_allowed h l2 -> exists m2, mem_run l2 m' = Some (m2, answers rom kb h l2).
Proof.
  intros ND n. pose proof reached as M. unfold attach_exroms, free_exrom_slots. rewrite (mt_carts _ _ _ _ M). cbv zeta.
  assert (L : (length (cartridges (rev l)) <= 256)%nat).
  { clear -A. assert (G : forall l h, all_allowed h l -> (length (cartridges h) <= 256)%nat -> (length (cartridges (rev l ++ h)) <= 256)%nat).
    { induction l0 as [|o l0 IH]; intros h A0 H; [exact H|]. cbn [rev]. rewrite <- app_assoc. destruct A0 as [A1 A2]. apply IH; [exact A2|].
      destruct o; cbn [app cartridges] in *; try exact H; [|cbn; lia]. rewrite app_length. cbn in A1 |- *. lia. }
    specialize (G l [] A). cbn [cartridges length] in G. rewrite app_nil_r in G. apply G. lia. }
  replace (Z.min (Z.of_nat (length boxes)) (256 - Z.of_nat (length (cartridges (rev l))))) with (Z.of_nat n) by lia.
  rewrite Nat2Z.id.
  assert (ND' : NoDup (map rb_id (cartridges (rev l) ++ firstn n boxes))).
  { rewrite <- (firstn_skipn n boxes), app_assoc, map_app in ND. exact (NoDup_front _ _ ND). }
  destruct (attach_all_ok rom kb (firstn n boxes) _ _ M ND') as (m' & E & M').
  { rewrite app_length, firstn_length. lia. }
  exists m'. rewrite E. split; [reflexivity|]. intros l2 A2. destruct (mem_run_ok rom kb l2 _ _ M' A2) as (m2 & E2 & _). eauto.
Qed.
Lemma attach_full x : mem_op (MInsert x) m = None <-> length (cartridges (rev l)) = 256%nat.
Proof.
  pose proof reached as M. cbn [mem_op]. unfold attach_exrom, free_exrom_slots. rewrite (mt_carts _ _ _ _ M).
  destruct (Z.eqb_spec (256 - Z.of_nat (length (cartridges (rev l)))) 0); split; intro G; try discriminate; try lia; reflexivity.
Qed.
End Reached.
Lemma new_none rom kb : mem_new rom kb = None <-> 0x2000 < Z.of_nat (length rom) \/ 48 < kb.
Proof.
  unfold mem_new, make_rom, MAXRAMSIZE, ROMSIZE, BANK2. destruct (Z.leb_spec (Z.of_nat (length rom)) 8192).
  - destruct (Z.leb_spec (kb * 1024) (65536 - 16384)); split; intro G; try discriminate; try lia; reflexivity.
  - split; intro; [left; lia|reflexivity].
Qed.
