(** C63: the debugger gets as far as the machine does. *)
From Coq Require Import ZArith Bool String List Lia.
From Verif Require Import Base Flags Ops Parse Cpu Flavours Prog Trace Internal Instr Exec Decode Opconsts Range SpecIsa SpecInt SpecDebug NoAck Forward SpecForward ForwardProofs
  SafeRun Reach RalMemory RalBus RalRunner RalDebug SpecRalDebug RalDebugStep RalDebugRet RalDebugProofs.
Import ListNotations.
Open Scope list_scope.
Open Scope Z_scope.

Section L.
Context {Q D : Type}.
Variables (FL : Flavour Q) (mask bits : Z) (dv : dev D).
Notation world := (world Q D).
Notation log := (list (ev Z unit unit)).
Notation H := (ral_host mask bits dv 0).
Notation tick := (tick FL mask bits dv).
Notation ticks := (ticks FL mask bits dv).
Implicit Types w : world.

Lemma tick_execs lim w l w2 : wf (w_cpu w) -> tick lim w l w2 -> exists w1,
  (forall s, exec_dbus FL mask bits dv s w = Done (w1, last_irq_data l s, debugs l)) /\ exec_bus FL mask bits dv true w = Done (w1, debugs l) /\
  (exists ds, exec_bus FL mask bits dv false w = Done (w1, ds)) /\ past lim w1 = (lim <=? clk w2) /\ (if past lim w1 then end_frame dv lim w1 else Done w1) = Done w2 /\
  w_cpu w2 = w_cpu w1 /\ rn_frame (w_run w1) = rn_frame (w_run w) /\ exists r, seen (w_cpu w) (w_cpu w2, r) l.
Proof.
  intros Hw (c & r & b & k & ds & E1 & E2 & HR & -> & HB). destruct (exec_runs FL mask bits dv w Hw) as (c0 & r0 & b0 & k0 & l0 & ds0 & _ & E3 & SN).
  rewrite E2 in E3. injection E3; intros; subst c0 r0 b0 k0 l0. clear E3. cbn [w_bus] in HB.
  assert (Hb : b <> None) by (intros ->; apply HB; now destruct (lim <=? tc_cur k)).
  exists (mkWorld (mkRunner k (rn_limit (w_run w)) (rn_frame (w_run w))) c b).
  split; [intros s; unfold exec_dbus; rewrite run_runl, debug_bus_runs, E2; cbn [captured]; unfold with_bus; destruct b; [|congruence]; destruct HR as [-> | ->]; reflexivity|].
  split; [unfold exec_bus; rewrite run_runl, E2; unfold with_bus; destruct b; [|congruence]; destruct HR as [-> | ->]; reflexivity|].
  split; [exists ds; unfold exec_bus; rewrite E1; unfold with_bus; destruct b; [|congruence]; destruct HR as [-> | ->]; reflexivity|].
  split; [reflexivity|]. split; [|split; [reflexivity|split; [reflexivity|exists r; exact SN]]].
  unfold past. cbn [w_run rn_clock]. destruct (lim <=? tc_cur k); [|reflexivity]. unfold end_frame. cbn [w_run rn_clock rn_frame w_cpu w_bus]. destruct (bus_frame_end dv (tc_cur k) b); [reflexivity|congruence].
Qed.
Lemma wrap_done w w0 : second_over dv w w0 -> fits w -> roomy w w0 -> check_wrap_next_second dv w = Done w0.
Proof.
  intros SO [F1 F2] (R1 & R2 & R3). unfold check_wrap_next_second, check_wrap_second, second_over, mul32 in *. destruct w as [[k lim fr] c b]. cbn [w_run rn_clock rn_limit rn_frame w_cpu w_bus] in *.
  rewrite (proj2 (Z.ltb_lt _ _) R1). cbn [checked]. destruct (Z.ltb_spec (2 * tc_hz k) (tc_cur k)) as [W|W].
  - cbn [checked tc_hz]. unfold sub32. rewrite (proj2 (Z.leb_le _ _) (R2 W)). cbn [checked]. subst w0. cbn [w_bus] in R3. destruct (bus_next_second dv (tc_hz k) b) as [b'|]; [|congruence]. cbn [with_bus].
    do 3 f_equal. f_equal. unfold u32. apply Z.mod_small. lia.
  - cbn [checked]. subst w0. cbn [w_bus] in R3. destruct b; [|congruence]. reflexivity.
Qed.
Lemma add32_done a b : a + b < 2 ^ 32 -> add32 a b = Some (a + b).
Proof. intros X. unfold add32. now rewrite (proj2 (Z.ltb_lt _ _) X). Qed.
Lemma update_done v p (c : cpu Q) d : match d with Some d => dcode d <> [] | None => True end -> exists d', irq_debug_update v p c d = Some d'.
Proof. intros X. unfold irq_debug_update. destruct (im c); [eauto..|]. destruct d as [d|]; [|eauto]. destruct (dcode d); [congruence|eauto]. Qed.
Lemma described_code d : well_described d -> dcode d <> [].
Proof. intros (c & bs & -> & _). destruct (pbyte _); discriminate. Qed.
Lemma seen_dbg (c c' : cpu Q) r (l : log) : seen c (c', r) l -> wf c -> forall dbg, match dbg with Some d => dcode d <> [] | None => True end ->
  match last_report (debugs l) dbg with Some d => dcode d <> [] | None => True end.
Proof.
  intros SN Hw dbg HD. destruct (seen_shown _ _ _ _ SN Hw) as [(d0 & DB & _ & WD & _)|[(DB & _)|(DB & _)]]; rewrite DB; cbn; [now apply described_code|exact HD..].
Qed.

Lemma step_total n w w0 lim l w1 : wf (w_cpu w) -> fits w -> second_over dv w w0 -> roomy w w0 -> lim = rn_limit (w_run w0) + rn_frame (w_run w0) ->
  0 <= rn_frame (w_run w0) -> lim + 2 * rn_frame (w_run w0) < 2 ^ 32 -> tick lim w0 l w1 ->
  (prefix (w_cpu w1) <> None -> exists l2 w2, tick (if lim <=? clk w1 then lim + rn_frame (w_run w0) else lim) w1 l2 w2) ->
  exists w' d t, debug_step FL mask bits dv (S (S n)) w = Done (w', (d, t)).
Proof.
  intros Hw HF SO RM EL F0 FT TK NX. unfold debug_step. rewrite (wrap_done _ _ SO HF RM). cbn [oseq]. rewrite <- (second_cpu _ _ _ SO) in Hw.
  rewrite (add32_done (rn_limit (w_run w0)) (rn_frame (w_run w0))), <- EL by lia. cbn [checked]. cbn [step_loop].
  destruct (tick_execs _ _ _ _ Hw TK) as (v1 & X1 & _ & _ & P1 & E1 & C1 & R1 & r & SN). rewrite X1. cbn [oseq]. rewrite R1.
  assert (G : (if past lim v1 then checked (add32 lim (rn_frame (w_run w0))) (fun l2 => oseq (end_frame dv lim v1) (fun w => Done (w, l2))) else Done (v1, lim)) =
    Done (w1, if lim <=? clk w1 then lim + rn_frame (w_run w0) else lim)).
  { rewrite <- P1. destruct (past lim v1); [|now injection E1 as ->]. rewrite add32_done by lia. cbn [checked]. now rewrite E1. }
  rewrite G. cbn [oseq]. clear G. set (lim2 := if lim <=? clk w1 then lim + rn_frame (w_run w0) else lim) in *. pose proof (proj1 SN) as Hw1. cbn [fst] in Hw1.
  destruct (seen_shown _ _ _ _ SN Hw) as [(d0 & DB & (d1 & EQ & SH) & WD & FB)|[(DB & _ & HH & LQ & SH)|(DB & PX & HH & NA)]]; rewrite DB; cbn [last_report fold_left is_none negb orb].
  - cbn [oseq]. rewrite EQ. cbn [checked]. eauto.
  - rewrite HH, LQ. cbn [oseq checked]. eauto.
  - rewrite HH. destruct (prefix (w_cpu w1)) as [px2|] eqn:P2; [|congruence]. cbn [is_none].
    assert (FIN : forall w' d, match d with Some d => dcode d <> [] | None => True end -> exists d', match last_irq_data l None with Some data => irq_debug_update data (pc (w_cpu w0)) (w_cpu w') d | None => Some d end = Some d').
    { intros w' d X. destruct (last_irq_data l None); [now apply update_done|eauto]. }
    destruct (prefix (w_cpu w0)) as [px|] eqn:P0.
    + cbn [oseq]. destruct (FIN w1 (Some (prefix_debug px (pc (w_cpu w0)))) ltac:(discriminate)) as [d' ->]. cbn [checked]. eauto.
    + destruct (NX ltac:(discriminate)) as (l2 & w2 & TK2). destruct (tick_execs _ _ _ _ Hw1 TK2) as (v2 & X2 & _ & _ & P3 & E2 & C2 & R2 & r2 & SN2). rewrite X2. cbn [oseq].
      assert (FR : rn_frame (w_run w1) = rn_frame (w_run w0)) by (destruct TK as (? & ? & ? & ? & ? & _ & _ & _ & -> & _); reflexivity). rewrite R2, FR.
      assert (G : exists l3, (if past lim2 v2 then checked (add32 lim2 (rn_frame (w_run w0))) (fun l2 => oseq (end_frame dv lim2 v2) (fun w => Done (w, l2))) else Done (v2, lim2)) = Done (w2, l3)).
      { destruct (past lim2 v2); [|injection E2 as ->; eauto]. rewrite add32_done by (subst lim2; destruct (lim <=? clk w1); lia). cbn [checked]. rewrite E2. cbn [oseq]. eauto. }
      destruct G as [l3 ->]. cbn [oseq].
      assert (LQ2 : last_irq_data l2 (last_irq_data l None) = last_irq_data l None).
      { apply last_irq_na. destruct SN2 as [_ [(tt & p & t' & v & w3 & l' & _ & _ & _ & AL & _)|[(_ & _ & _ & _ & NA2)|(_ & NA2 & _)]]]; [|exact NA2..]. apply allowed_px in AL. congruence. }
      rewrite LQ2. pose proof (seen_dbg _ _ _ _ SN2 Hw1 None I) as SD.
      destruct (seen_shown _ _ _ _ SN2 Hw1) as [(d0 & DB2 & _)|[(_ & HX & _)|(DB2 & PX2 & HH2 & _)]]; [| |].
      * rewrite DB2 in *. cbn [last_report fold_left is_none negb orb oseq] in *. destruct (FIN w2 (Some d0) SD) as [d' ->]. cbn [checked]. eauto.
      * congruence.
      * rewrite DB2, HH2. cbn [last_report fold_left is_none negb orb]. destruct (prefix (w_cpu w2)) as [px3|]; [|congruence]. cbn [is_none oseq].
        destruct (FIN w2 (Some (prefix_debug px2 (pc (w_cpu w0)))) ltac:(discriminate)) as [d' ->]. cbn [checked]. eauto.
Qed.

Lemma int_loop_total lim start tr : forall w w' dbg, wf (w_cpu w) -> match dbg with Some d => dcode d <> [] | None => True end -> ticks lim w tr w' -> tr <> [] -> lim <= clk w' ->
  exists x, int_loop FL mask bits dv (List.length tr) lim start None dbg w = Done x.
Proof.
  induction tr as [|[[a l] w1] tr IH]; intros w w' dbg Hw HD TS NE LE; [congruence|]. inversion TS as [|? ? ? ? ? TK TS']; subst. clear TS NE. cbn [List.length int_loop].
  destruct (tick_execs _ _ _ _ Hw TK) as (v1 & X1 & _ & _ & P1 & E1 & C1 & R1 & r & SN). rewrite X1. cbn [oseq]. rewrite E1. cbn [oseq]. pose proof (seen_dbg _ _ _ _ SN Hw dbg HD) as SD.
  destruct (last_irq_data l None) as [v|].
  - destruct (update_done v (pc (w_cpu a)) (w_cpu w1) _ SD) as [d' ->]. cbn [checked]. eauto.
  - rewrite P1. destruct (Z.leb_spec lim (clk w1)); [eauto|]. apply (IH w1 w'); [exact (proj1 SN)|exact SD|exact TS'| |exact LE]. intros ->. inversion TS'; subst. lia.
Qed.
Lemma ret_loop_total lim start tr : forall w w', wf (w_cpu w) -> ticks lim w tr w' -> tr <> [] -> lim <= clk w' ->
  exists x, ret_loop FL mask bits dv (List.length tr) lim start None w = Done x.
Proof.
  induction tr as [|[[a l] w1] tr IH]; intros w w' Hw TS NE LE; [congruence|]. inversion TS as [|? ? ? ? ? TK TS']; subst. clear TS NE. cbn [List.length ret_loop].
  destruct (tick_execs _ _ _ _ Hw TK) as (v1 & _ & X1 & _ & P1 & E1 & C1 & R1 & r & SN). rewrite X1. cbn [oseq].
  assert (G : exists dbg, ret_report (debugs l) None = Some dbg).
  { destruct (seen_shown _ _ _ _ SN Hw) as [(d0 & DB & _ & WD & FB)|[(DB & _)|(DB & _)]]; rewrite DB; [|exists None; reflexivity..].
    destruct (just_ret d0 (w_cpu w1) WD FB) as (b & _ & IR & _). unfold ret_report. cbn [fold_left]. rewrite IR. eauto. }
  destruct G as [dbg ->]. cbn [checked]. rewrite E1. cbn [oseq]. rewrite P1. destruct (match dbg with Some deb => if not_taken (dcode deb) (w_cpu w1) then None else dbg | None => None end) as [d|]; cbn [is_none negb].
  - rewrite orb_true_r. eauto.
  - rewrite orb_false_r. destruct (Z.leb_spec lim (clk w1)); [eauto|]. apply (IH w1 w'); [exact (proj1 SN)|exact TS'| |exact LE]. intros ->. inversion TS'; subst. lia.
Qed.
Lemma brkpt_loop_total search brkpts lim start tr : forall w w' next n, wf (w_cpu w) -> ticks lim w tr w' -> tr <> [] -> lim <= clk w' -> ~ In (pc (w_cpu w')) brkpts -> pc (w_cpu w') <> 0xFFFF ->
  (forall x, next = Some x -> In x brkpts \/ x = 0xFFFF) -> (2 * List.length tr + match next with None => 1 | Some _ => 0 end <= n)%nat ->
  exists x, brkpt_loop FL mask bits dv search n lim start brkpts next (pc (w_cpu w)) w = Done x.
Proof.
  induction tr as [|[[a l] w1] tr IH]; intros w w' next n Hw TS NE LE NI NF HX HN; [congruence|]. inversion TS as [|? ? ? ? ? TK TS']; subst. clear TS NE. cbn [List.length] in HN.
  assert (G : forall x n, In x brkpts \/ x = 0xFFFF -> (2 * List.length tr + 1 <= n)%nat -> exists y, brkpt_loop FL mask bits dv search (S n) lim start brkpts (Some x) (pc (w_cpu a)) a = Done y).
  { clear n next HX HN. intros x n HX HN. cbn [brkpt_loop]. destruct (tick_execs _ _ _ _ Hw TK) as (v1 & _ & _ & (ds & X1) & P1 & E1 & C1 & R1 & r & SN). rewrite X1. cbn [oseq]. rewrite <- C1, P1. rewrite P1 in E1.
    assert (LAST : tr = [] -> w1 = w') by (intros ->; now inversion TS').
    destruct (Z.leb_spec lim (clk w1)).
    - rewrite E1. cbn [oseq]. destruct (Z.eqb_spec (pc (w_cpu w1)) x) as [EX|]; [|eauto]. apply (IH w1 w'); [exact (proj1 SN)|exact TS'| |exact LE|exact NI|exact NF|discriminate|exact HN].
      intros ->. rewrite (LAST eq_refl) in EX. destruct HX as [HX|HX]; congruence.
    - injection E1 as ->. assert (NT : tr <> []) by (intros ->; rewrite (LAST eq_refl) in *; lia).
      destruct ((x <=? pc (w_cpu w1)) || (pc (w_cpu w1) <? pc (w_cpu a))); (apply (IH w1 w'); [exact (proj1 SN)|exact TS'|exact NT|exact LE|exact NI|exact NF| |lia]); [discriminate|]. intros y [= <-]. exact HX. }
  destruct next as [x|].
  - destruct n as [|n]; [lia|]. apply G; [now apply HX|lia].
  - destruct n as [|[|n]]; [lia..|]. cbn [brkpt_loop]. destruct (search brkpts (pc (w_cpu a))) as [i|i]; [eauto|].
    change (exists y, brkpt_loop FL mask bits dv search (S n) lim start brkpts (Some (nth i brkpts 0xFFFF)) (pc (w_cpu a)) a = Done y). apply G; [|lia].
    destruct (Nat.lt_ge_cases i (List.length brkpts)) as [L|L]; [left; now apply nth_In|right; now apply nth_overflow].
Qed.
Lemma runs_total w w0 lim tr w' : wf (w_cpu w) -> fits w -> second_over dv w w0 -> roomy w w0 -> lim = rn_limit (w_run w0) + rn_frame (w_run w0) -> lim < 2 ^ 32 ->
  ticks lim w0 tr w' -> tr <> [] -> lim <= clk w' ->
  (exists x, debug_runto_int FL mask bits dv (List.length tr) w = Done x) /\ (exists x, debug_runto_ret FL mask bits dv (List.length tr) w = Done x) /\
  forall search brkpts, ~ In (pc (w_cpu w')) brkpts -> pc (w_cpu w') <> 0xFFFF -> exists x, run_until_brkpt FL mask bits dv search (2 * List.length tr + 1) brkpts w = Done x.
Proof.
  intros Hw HF SO RM EL LT TS NE LE. unfold debug_runto_int, debug_runto_ret, run_until_brkpt. rewrite (wrap_done _ _ SO HF RM). cbn [oseq]. rewrite <- (second_cpu _ _ _ SO) in Hw.
  rewrite (add32_done (rn_limit (w_run w0)) (rn_frame (w_run w0))), <- EL by lia. cbn [checked].
  split; [exact (int_loop_total lim _ tr w0 w' None Hw I TS NE LE)|]. split; [exact (ret_loop_total lim _ tr w0 w' Hw TS NE LE)|].
  intros search brkpts NI NF. apply (brkpt_loop_total search brkpts lim _ tr w0 w'); try assumption; [discriminate|lia].
Qed.
End L.
