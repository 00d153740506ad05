(** C65: the orders of the example computer's debugger. *)
From Coq Require Import ZArith Bool String List Lia.
From Verif Require Import Base Flags Ops Parse Cpu Flavours Prog Trace Internal Exec Range SpecIsa SpecInt SpecDebug Forward SafeRun Reach RalMemory RalBus RalRunner RalRunnerProofs RalDebug SpecRalDebug
  RalDebugStep RalDebugRet RalDebugProofs RalDebugTotal RalThread SpecRalThread IsaRun.
Import ListNotations.
Open Scope list_scope.
Open Scope Z_scope.

Section L.
Context {Q D : Type}.
Variables (FL : Flavour Q) (mask bits : Z) (dv : dev D).
Notation world := (world Q D).
Notation H := (ral_host mask bits dv 0).
Notation tick := (tick FL mask bits dv).
Notation ticks := (ticks FL mask bits dv).
Implicit Types w : world.
Ltac nxt E l' := cbv zeta in E; apply cons_log_inv in E; destruct E as (l' & E & ->).
(** The clock stays a number of 32 bits. *)
Definition u32_clock (k : tclock) : Prop := 0 <= tc_hz k /\ 0 <= tc_cur k < 2 ^ 32.
Lemma run_u32 {A} (p : prog Z unit unit A) : forall b k x b' k' l, u32_clock k -> runl H p b k = Some (x, b', k', l) -> u32_clock k'.
Proof.
  assert (T : forall k n, u32_clock k -> u32_clock (tadd k n)) by (intros k n [H1 _]; split; [exact H1|]; apply Z.mod_pos_bound; lia).
  induction p as [a| |f IH|a f IH|a n f IH|a f IH|a f IH|a f IH|a n f IH|f IH|a t f IH|a v t f IH|t f IH|a t f IH|a t f IH
    |a t f IH|a t f IH|a i t f IH|a v t f IH|a f IH|d f IH]; intros b k x b' k' l U E; cbn [runl] in E.
  1: { now injection E as <- <- <- <-. }
  1: { discriminate E. }
  all: repeat match type of E with context [let (_, _) := ?x in _] => let F := fresh "F" in destruct x eqn:F end.
  all: nxt E l'; apply IH in E; [exact E|]; try exact U; try (apply T; exact U).
  all: cbn [ral_host h_add_irq h_add_m1 h_add_mreq h_add_io] in F; unfold tadd' in F; injection F as <- _; apply T; exact U.
Qed.
Definition inv w : Prop := wf (w_cpu w) /\ fits w.
Lemma tick_inv lim w l w' : inv w -> tick lim w l w' -> inv w'.
Proof.
  intros [Hw F] TK. split.
  - destruct (tick_execs FL mask bits dv _ _ _ _ Hw TK) as (_ & _ & _ & _ & _ & _ & _ & _ & r & SN). exact (proj1 SN).
  - destruct TK as (c & r & b & k & ds & _ & E & _ & -> & _). exact (run_u32 _ _ _ _ _ _ _ F E).
Qed.
Lemma ticks_inv lim w tr w' : inv w -> ticks lim w tr w' -> inv w'.
Proof. intros I TS. induction TS as [|w l w1 tr w' TK _ IH]; [exact I|]. apply IH. exact (tick_inv _ _ _ _ I TK). Qed.
Lemma second_inv w w0 : inv w -> second_over dv w w0 -> inv w0.
Proof.
  intros [Hw [F1 F2]] SO. split; [now rewrite (second_cpu dv _ _ SO)|]. unfold second_over in SO. destruct (Z.ltb_spec (2 * tc_hz (rn_clock (w_run w))) (clk w)); subst w0; split; cbn; try assumption. lia.
Qed.
Lemma step_inv n w w' d t : inv w -> debug_step FL mask bits dv n w = Done (w', (d, t)) -> inv w'.
Proof.
  intros I E. destruct (debug_step_spec FL mask bits dv _ _ _ _ _ (proj1 I) (proj2 I) E) as (w0 & lim & SO & _ & _ & C). pose proof (second_inv _ _ I SO) as I0.
  destruct C as [(l & TK & _)|(l & w1 & TK & _ & _ & [(px & _ & -> & _)|(_ & l2 & TK2 & _)])]; [exact (tick_inv _ _ _ _ I0 TK)..|].
  exact (tick_inv _ _ _ _ (tick_inv _ _ _ _ I0 TK) TK2).
Qed.
Lemma ret_runs n w w' d t : inv w -> debug_runto_ret FL mask bits dv n w = Done (w', (d, t)) ->
  inv w' /\ match d with Some d => hit_ret FL mask bits dv w w' d t | None => miss_ret FL mask bits dv w w' t end.
Proof.
  intros I E. destruct (runto_ret_spec FL mask bits dv _ _ _ _ _ (proj1 I) (proj2 I) E) as (w0 & lim & tr & w1 & l & SO & EL & TS & NR & ET & C).
  split; [exact (ticks_inv _ _ _ _ (second_inv _ _ I SO) TS)|]. assert (LG : leg FL mask bits dv w lim (tr ++ [(w1, l, w')]) w' t) by (exists w0; tauto). destruct d as [d|].
  - exists lim, tr, w1, l. split; [exact LG|]. split; [|exact C]. intros a la b x I1. exact (proj2 (NR _ _ _ I1) x).
  - destruct C as [LE NR2]. exists lim, (tr ++ [(w1, l, w')]). split; [exact LG|]. split; [|split; [exact LE|now destruct tr]].
    intros a la b x I1. apply in_app_or in I1. destruct I1 as [I1|[[= <- <- <-]|[]]]; [exact (proj2 (NR _ _ _ I1) x)|exact (NR2 x)].
Qed.
Lemma pc_runs search p n w w' d t : searches search [p] -> inv w -> run_until_brkpt FL mask bits dv search n [p] w = Done (w', (d, t)) ->
  inv w' /\ match d with Some _ => hit_pc FL mask bits dv p w w' t | None => miss_pc FL mask bits dv p w w' t end.
Proof.
  intros HS I E. assert (HA : ascending [p]) by (intros [|[|i]] [|[|j]] x y L E1 E2; cbn in E1, E2; try discriminate; injection E1 as <-; injection E2 as <-; lia).
  destruct (run_until_spec FL mask bits dv search [p] _ _ _ _ _ HS HA (proj1 I) (proj2 I) E) as (w0 & lim & tr & SO & EL & TS & NB & ET & _ & C).
  split; [exact (ticks_inv _ _ _ _ (second_inv _ _ I SO) TS)|]. assert (LG : leg FL mask bits dv w lim tr w' t) by (exists w0; tauto).
  assert (AV : avoids p tr) by (intros a la b I1 X; apply (NB _ _ _ I1); left; now symmetry). destruct d as [i|].
  - exists lim, tr. split; [exact LG|]. split; [exact AV|]. destruct i as [|[|i]]; cbn in C; [now injection C|discriminate..].
  - exists lim, tr. tauto.
Qed.
Lemma int_runs n w w' d t : inv w -> debug_runto_int FL mask bits dv n w = Done (w', (d, t)) ->
  inv w' /\ match d with Some d => hit_int FL mask bits dv w w' d t | None => miss_int FL mask bits dv w w' t end.
Proof.
  intros I E. destruct (runto_int_spec FL mask bits dv _ _ _ _ _ (proj1 I) (proj2 I) E) as (w0 & lim & tr & w1 & l & SO & EL & TS & NR & ET & C).
  split; [exact (ticks_inv _ _ _ _ (second_inv _ _ I SO) TS)|]. assert (LG : leg FL mask bits dv w lim (tr ++ [(w1, l, w')]) w' t) by (exists w0; tauto).
  assert (QT : quiet tr) by (intros a la b I1; exact (proj1 (NR _ _ _ I1))). destruct C as [(U & LE & ->)|[A S]].
  - exists lim, tr, w1, l. tauto.
  - destruct d; exists lim, tr, w1, l; tauto.
Qed.
(** [run_for] in general. *)
Lemma run_for_spec {E} (debug : world -> outcome (world * (option E * Z))) (miss : world -> world -> Z -> Prop) (hit : world -> world -> E -> Z -> Prop) :
  (forall w w' d t, inv w -> debug w = Done (w', (d, t)) -> inv w' /\ match d with Some d => hit w w' d t | None => miss w w' t end) ->
  forall frames start w w' d t, inv w -> run_for debug start frames w = Done (w', (d, t)) ->
  exists m wk tk, misses miss m w wk tk /\ match d with Some d => (m <= frames)%nat /\ exists th, hit wk w' d th /\ t - start = tk + th | None => m = S frames /\ wk = w' /\ t - start = tk end.
Proof.
  intros HD. induction frames as [|fr IH]; intros start w w' d t I R; cbn [run_for] in R; unfold oseq, checked in R; destruct (debug w) as [| |[w1 [d1 t1]]] eqn:E1; try discriminate R;
    destruct (HD _ _ _ _ I E1) as [I1 C]; (destruct (add32 start t1) as [s|] eqn:EA; [|discriminate R]); apply add32_eq in EA; destruct d1 as [d1|].
  - injection R as <- <- <-. exists 0%nat, w, 0. split; [constructor|]. split; [lia|]. exists t1. split; [exact C|lia].
  - injection R as <- <- <-. exists 1%nat, w1, (t1 + 0). split; [econstructor; [exact C|constructor]|]. split; [reflexivity|]. split; [reflexivity|lia].
  - injection R as <- <- <-. exists 0%nat, w, 0. split; [constructor|]. split; [lia|]. exists t1. split; [exact C|lia].
  - destruct (IH _ _ _ _ _ I1 R) as (m & wk & tk & MS & X). exists (S m), wk, (t1 + tk). split; [econstructor; eassumption|]. destruct d as [d|].
    + destruct X as (L & th & HH & ET). split; [lia|]. exists th. split; [exact HH|lia].
    + destruct X as (-> & -> & ET). split; [reflexivity|]. split; [reflexivity|lia].
Qed.
Lemma orders_spec n frames w : inv w ->
  (forall start w' d t, run_for (debug_runto_ret FL mask bits dv n) start frames w = Done (w', (d, t)) -> to_return FL mask bits dv frames w w' d (t - start)) /\
  (forall start w' d t, run_for (debug_runto_int FL mask bits dv n) start frames w = Done (w', (d, t)) -> to_int FL mask bits dv frames w w' d (t - start)).
Proof.
  intros I. split; intros start w' d t R; [exact (run_for_spec _ _ _ (ret_runs n) _ _ _ _ _ _ I R)|exact (run_for_spec _ _ _ (int_runs n) _ _ _ _ _ _ I R)].
Qed.
Lemma completion_spec search n hz w w' d t : (forall p, searches search [p]) -> inv w -> run_to_completion FL mask bits dv search n hz w = Done (w', (d, t)) ->
  exists w1 d1 t1, debug_step FL mask bits dv n w = Done (w1, (d1, t1)) /\
    match d1 with
    | None => to_return FL mask bits dv hz w1 w' d (t - t1)
    | Some x =>
        (w' = w1 /\ d = Some x /\ t = t1 /\ (well_described x -> Forall byte (dcode x) -> returns x (w_cpu w1))) \/
        (d = None /\ to_pc FL mask bits dv ((dpc x + Z.of_nat (List.length (dcode x))) mod 65536) hz w1 w' (t - t1) /\ (well_described x -> Forall byte (dcode x) -> calls x (w_cpu w1))) \/
        (to_return FL mask bits dv hz w1 w' d (t - t1) /\ (well_described x -> Forall byte (dcode x) -> ~ returns x (w_cpu w1) /\ ~ calls x (w_cpu w1)))
    end.
Proof.
  intros HS I E. unfold run_to_completion in E. destruct (debug_step FL mask bits dv n w) as [| |[w1 [d1 t1]]] eqn:E1; [discriminate E..|]. pose proof (step_inv _ _ _ _ _ I E1) as I1. cbn [oseq] in E.
  exists w1, d1, t1. split; [reflexivity|].
  assert (TR : run_for (debug_runto_ret FL mask bits dv n) t1 hz w1 = Done (w', (d, t)) -> to_return FL mask bits dv hz w1 w' d (t - t1)).
  { intros R. exact (run_for_spec _ _ _ (ret_runs n) _ _ _ _ _ _ I1 R). }
  destruct d1 as [x|]; [|exact (TR E)].
  assert (JR := just_ret (Q:=Q) x (w_cpu w1)). assert (JC := just_call (Q:=Q) x (w_cpu w1)).
  destruct (was_just_a_ret x (w_cpu w1)) as [r|]; [|discriminate E]. cbn [checked] in E. destruct r.
  { injection E as <- <- <-. left. repeat (split; [reflexivity|]). intros WD FB. destruct (JR WD FB) as (b & [= <-] & _ & _ & HB). now apply HB. }
  assert (NR : well_described x -> Forall byte (dcode x) -> ~ returns x (w_cpu w1)).
  { intros WD FB X. destruct (JR WD FB) as (b & [= <-] & _ & _ & HB). apply HB in X. discriminate X. }
  destruct (was_just_a_call x (w_cpu w1)) as [c|]; [|discriminate E]. cbn [checked] in E. right. destruct c.
  - left. destruct (run_for _ t1 hz w1) as [| |[w2 [d2 t2]]] eqn:R; [discriminate E..|]. cbn [oseq fst snd] in E. injection E as <- <- <-. split; [reflexivity|]. split.
    + destruct (run_for_spec _ _ (fun a b _ => hit_pc FL mask bits dv (u16 (dpc x + Z.of_nat (List.length (dcode x)))) a b) (fun a b d t => pc_runs search _ n a b d t (HS _)) _ _ _ _ _ _ I1 R) as (m & wk & tk & MS & X).
      exists m, wk, tk. split; [exact MS|]. destruct d2; tauto.
    + intros WD FB. destruct (JC WD FB) as (b & [= <-] & HB). now apply HB.
  - right. split; [exact (TR E)|]. intros WD FB. split; [now apply NR|]. intros X. destruct (JC WD FB) as (b & [= <-] & HB). apply HB in X. discriminate X.
Qed.
(** Nothing overflows, and it ends if each run does; [P k]: machines with [k] more frames to go. *)
Lemma run_for_total {E} (debug : world -> outcome (world * (option E * Z))) (P : nat -> world -> Prop) top :
  (forall k w, P k w -> exists w' d t, debug w = Done (w', (d, t)) /\ 0 <= t <= top /\ (d = None -> forall j, k = S j -> P j w')) ->
  forall frames start w, P frames w -> 0 <= start -> start + (Z.of_nat frames + 1) * top < 2 ^ 32 -> exists x, run_for debug start frames w = Done x.
Proof.
  intros HD. induction frames as [|fr IH]; intros start w Hw H0 HT; destruct (HD _ w Hw) as (w' & d & t & E1 & Ht & Hw'); cbn [run_for]; rewrite E1; cbn [oseq]; unfold add32.
  all: assert (LT : start + t < 2 ^ 32) by nia; rewrite (proj2 (Z.ltb_lt _ _) LT); cbn [checked].
  - destruct d; eexists; reflexivity.
  - destruct d as [d|]; [eexists; reflexivity|]. apply IH; [now apply Hw'|lia|lia].
Qed.
Lemma completion_total search n hz w w1 d1 t1 (P : nat -> world -> Prop) top : debug_step FL mask bits dv n w = Done (w1, (d1, t1)) ->
  (forall x, d1 = Some x -> well_described x /\ Forall byte (dcode x)) -> P hz w1 -> 0 <= t1 -> t1 + (Z.of_nat hz + 1) * top < 2 ^ 32 ->
  (forall k a, P k a -> exists w' d t, debug_runto_ret FL mask bits dv n a = Done (w', (d, t)) /\ 0 <= t <= top /\ (d = None -> forall j, k = S j -> P j w')) ->
  (forall x k a, d1 = Some x -> P k a -> exists w' d t, run_until_brkpt FL mask bits dv search n [(dpc x + Z.of_nat (List.length (dcode x))) mod 65536] a = Done (w', (d, t)) /\ 0 <= t <= top /\ (d = None -> forall j, k = S j -> P j w')) ->
  exists x, run_to_completion FL mask bits dv search n hz w = Done x.
Proof.
  intros E WD Hw H0 HT HR HB. unfold run_to_completion. rewrite E. cbn [oseq]. destruct d1 as [x|]; [|exact (run_for_total _ P top HR hz t1 w1 Hw H0 HT)].
  destruct (WD x eq_refl) as [W B]. destruct (just_ret x (w_cpu w1) W B) as (r & -> & _). cbn [checked]. destruct r; [eexists; reflexivity|].
  destruct (just_call x (w_cpu w1) W B) as (c & -> & _). cbn [checked]. destruct c; [|exact (run_for_total _ P top HR hz t1 w1 Hw H0 HT)].
  change (u16 (dpc x + Z.of_nat (List.length (dcode x)))) with ((dpc x + Z.of_nat (List.length (dcode x))) mod 65536).
  destruct (run_for_total _ P top (fun k a => HB x k a eq_refl) hz t1 w1 Hw H0 HT) as [y ->]. eexists; reflexivity.
Qed.
End L.
