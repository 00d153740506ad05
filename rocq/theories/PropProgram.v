(** C50: the sorting routines of the crate's shuffle test (tests/shuffle/shuffle.bin), run on the CPU, sort whatever is in
    memory. *)
From Coq Require Import ZArith Bool List Permutation Sorted Lia.
From Verif Require Import Base Parse Cpu Flavours Prog Trace Exec Clock ClockProofs SpecState SpecIsa SpecCycles IsaLink IsaRun
  Shuffle SpecProgram ProgSort.
Import ListNotations.
Open Scope Z_scope.

(** By [execute_next] until HALT, with and without a debugger, on any computer with RAM; the clock may be anything. *)
Theorem C50_sorts : forall Q T (FL : Flavour Q) (ch : chip T) absq, models FL ch absq ->
  forall s up dbg TS WB RB BS CK (Hs : host TS WB RB BS CK) mo c b k, computer Hs mo -> loaded (mo b) (sort_at s up) ->
  exists fuel c' b' k' l, runl Hs (run_to_halt FL dbg fuel (reset FL c)) b k = Some (Some c', b', k', l) /\
    sorted_run s up c' (mo b) (mo b') (buses l) (tsum (clocks l)).
Proof. intros Q T FL ch absq OK s up dbg TS WB RB BS CK Hs mo c b k. exact (sorts_to_halt FL ch absq OK s up dbg Hs mo c b k). Qed.
(** By [execute_with_limit] with a clock [TsCounter] of any type that has room for [sort_time] T-states below the limit: the limit
    is never reached, and the clock shows the T-states taken. *)
Theorem C50_sorts_in_time : forall Q T (FL : Flavour Q) (ch : chip T) absq, models FL ch absq ->
  forall s up da TS WB RB BS (Hs : host TS WB RB BS Z) mo W lim resume c b k, computer Hs mo -> keeps mo resume ->
  0 < bits W -> ts_clock W Hs -> (forall k, h_is_past_limit Hs k = (lim <=? k)) -> in_type W k -> in_type W lim ->
  k + sort_time s < lim -> loaded (mo b) (sort_at s up) ->
  exists c' b' k' l, run_with_limits FL da Hs resume (reset FL c) b k c' b' k' l /\ k' = k + tsum (clocks l) /\
    sorted_run s up c' (mo b) (mo b') (buses l) (tsum (clocks l)).
Proof.
  intros Q T FL ch absq OK s up da TS WB RB BS Hs mo W lim resume c b k.
  exact (sorts_with_limit FL ch absq OK s up da Hs mo W lim resume c b k).
Qed.
(** [assert_mem_sorted] (shuffle_test.rs:192-197): if all bytes are there, they end up as 0, 1, .., 255, or the other way round. *)
Theorem C50_all_bytes : forall Q WB RB s up (c' : cpu Q) m m' (bl : list (bev WB RB)) t, sorted_run s up c' m m' bl t ->
  Permutation (map Z.of_nat (seq 0 256)) (cells m at_target 256) ->
  cells m' at_target 256 = if up then map Z.of_nat (seq 0 256) else rev (map Z.of_nat (seq 0 256)).
Proof.
  intros Q WB RB s up c' m m' bl t S P. apply sorted_all; [|exact (sr_sorted _ _ _ _ _ _ _ S)].
  exact (Permutation_trans P (sr_perm _ _ _ _ _ _ _ S)).
Qed.

(** The program with data and a routine to call. *)
Definition pg_mem (routine : Z) (data : list Z) : mem := fun a =>
  if (716 <=? a) && (a <? 972) then nth (Z.to_nat (a - 716)) data 0
  else if a =? 972 then routine mod 256 else if a =? 973 then routine / 256 else nth (Z.to_nat a) image 0.
(** The start-up code alone: the routine is the RET that ends the selection sort. *)
Example C50_ex_start :
  match runl (demo 1000) (run_to_halt NMOS false 20 (cpu_new NMOS q_default)) (pg_mem 285 []) 0 with
  | Some (Some c, m, k, l) => halt c = true /\ pc c = 13 /\ sp c = 1506 /\ k = 75 /\ length l = 39%nat
  | _ => False end.
Proof. vm_compute. repeat split. Qed.
(** The test's own data, shuffled from the seed 0x0368, insertion sort downwards, the limit below that of the test (which starts at
    more than 0). *)
Lemma C50_ex_loaded : loaded (fun a => u8 (pg_mem at_insertion_desc shuffled_0368 a)) at_insertion_desc.
Proof.
  split; [|vm_compute; split; reflexivity]. intros i Hi. change at_seed with 712 in Hi. unfold pg_mem.
  destruct (Z.leb_spec 716 i); [lia|]. destruct (Z.eqb_spec i 972); [lia|]. destruct (Z.eqb_spec i 973); [lia|]. cbn [andb].
  assert (F : forallb (fun x => u8 x =? x) image = true) by (vm_compute; reflexivity). rewrite forallb_forall in F.
  apply Z.eqb_eq, F, nth_In. apply Nat2Z.inj_lt. change (Z.of_nat (length image)) with 1506. lia.
Qed.
Lemma C50_ex_data : Permutation (map Z.of_nat (seq 0 256)) (cells (fun a => u8 (pg_mem at_insertion_desc shuffled_0368 a)) at_target 256).
Proof.
  apply NoDup_Permutation_bis.
  - apply FinFun.Injective_map_NoDup; [intros x y; apply Nat2Z.inj|apply seq_NoDup].
  - unfold cells. now rewrite !map_length, !seq_length.
  - assert (F : forallb (fun x => existsb (Z.eqb x) (cells (fun a => u8 (pg_mem at_insertion_desc shuffled_0368 a)) at_target 256))
      (map Z.of_nat (seq 0 256)) = true) by (vm_compute; reflexivity).
    rewrite forallb_forall in F. intros x Hx. apply F in Hx. apply existsb_exists in Hx. destruct Hx as (y & Hy & E).
    apply Z.eqb_eq in E. now subst.
Qed.
Example C50_ex : exists c' m' k l,
  run_with_limits CMOS true (demo 1600000) (fun _ m => m) (cpu_new CMOS tt) (pg_mem at_insertion_desc shuffled_0368) 0 c' m' k l /\
  halt c' = true /\ k <= 1507174 /\
  map (fun i => u8 (m' i)) [716; 717; 718; 970; 971; 972] = [255; 254; 253; 1; 0; 358 mod 256] /\
  map (pg_mem at_insertion_desc shuffled_0368) [716; 717; 718; 970; 971; 972] = [131; 219; 20; 152; 229; 358 mod 256].
Proof.
  assert (HC : computer (demo 1600000) (fun m a => u8 (m a))) by (split; [apply ram_demo|reflexivity]).
  destruct (C50_sorts_in_time _ _ CMOS cmos _ m_cmos Insertion false true _ _ _ _ (demo 1600000) _ U64 1600000 (fun _ m => m)
    (cpu_default tt) (pg_mem at_insertion_desc shuffled_0368) 0 HC (fun _ _ _ => eq_refl) eq_refl (ts_host_clock _ _ _ _ _ _ _ _ _)
    (fun _ => eq_refl) ltac:(vm_compute; split; [discriminate|reflexivity]) ltac:(vm_compute; split; [discriminate|reflexivity]) eq_refl C50_ex_loaded)
    as (c' & m' & k & l & E & Ek & S).
  exists c', m', k, l. split; [exact E|]. split; [exact (sr_halt _ _ _ _ _ _ _ S)|]. split; [exact (eq_ind_r (fun k => k <= _) (sr_time _ _ _ _ _ _ _ S) Ek)|].
  assert (G := C50_all_bytes _ _ _ _ _ _ _ _ _ _ S). assert (F := sr_frame _ _ _ _ _ _ _ S 972 ltac:(vm_compute; intuition discriminate) ltac:(vm_compute; intuition discriminate)).
  split; [|vm_compute; reflexivity].
  cbn [map]. rewrite F. clear F. specialize (G C50_ex_data).
  assert (H : forall i, (i < 256)%nat -> u8 (m' (716 + Z.of_nat i)) = nth i (rev (map Z.of_nat (seq 0 256))) 0).
  { intros i Hi. rewrite <- G. symmetry. exact (cells_nth (fun a => u8 (m' a)) 716 256 i Hi). }
  rewrite (H 0%nat : _ -> u8 (m' 716) = _), (H 1%nat : _ -> u8 (m' 717) = _), (H 2%nat : _ -> u8 (m' 718) = _) by lia.
  rewrite (H 254%nat : _ -> u8 (m' 970) = _), (H 255%nat : _ -> u8 (m' 971) = _) by lia. vm_compute. reflexivity.
Qed.
Definition C50_all := (@C50_sorts, @C50_sorts_in_time, @C50_all_bytes).
Print Assumptions C50_all.
