(** C63: the loops of the debugger. *)
From Coq Require Import ZArith Bool String List Lia.
From Verif Require Import Base Flags Ops Parse Cpu Flavours Prog Trace Internal Instr Exec Decode Opconsts Range SpecIsa SpecInt SpecDebug NoAck Forward SpecForward ForwardProofs
  SafeRun Reach RalMemory RalBus RalRunner RalDebug SpecRalDebug RalDebugStep RalDebugRet.
Import ListNotations.
Open Scope list_scope.
Open Scope Z_scope.

Section L.
Context {Q D : Type}.
Variables (FL : Flavour Q) (mask bits : Z) (dv : dev D).
Notation world := (world Q D).
Notation log := (list (ev Z unit unit)).
Notation H := (ral_host mask bits dv 0).
Notation tick := (tick FL mask bits dv).
Notation ticks := (ticks FL mask bits dv).
Implicit Types w : world.

(** ** One tick *)
Definition seen (c : cpu Q) (x : cpu Q * result unit unit) (l : log) : Prop := wf (fst x) /\ (by_int c x l \/ by_halt c x l \/ by_code c x l).
(** What an [execute_next] leaves, with [l] on the bus. *)
Definition went w (l : log) w' : Prop :=
  exists c r b k ds, run H (execute_next FL false (w_cpu w)) (w_bus w) (rn_clock (w_run w)) = Some ((c, r), b, k, ds) /\
    runl H (execute_next FL true (w_cpu w)) (w_bus w) (rn_clock (w_run w)) = Some ((c, r), b, k, l) /\
    (r = None \/ r = Some BHalt) /\ w' = mkWorld (mkRunner k (rn_limit (w_run w)) (rn_frame (w_run w))) c b /\ b <> None /\ seen (w_cpu w) (c, r) l.
Lemma exec_runs w : wf (w_cpu w) -> exists c r b k l ds,
  run H (execute_next FL false (w_cpu w)) (w_bus w) (rn_clock (w_run w)) = Some ((c, r), b, k, ds) /\
  runl H (execute_next FL true (w_cpu w)) (w_bus w) (rn_clock (w_run w)) = Some ((c, r), b, k, l) /\ seen (w_cpu w) (c, r) l.
Proof.
  intros Hw. destruct (execute_next_same FL (w_cpu w) Hw _ _ H (w_bus w) (rn_clock (w_run w))) as ([c r] & b & k & ds & ds' & E1 & E2).
  rewrite run_runl in E1. destruct (runl H (execute_next FL true (w_cpu w)) (w_bus w) (rn_clock (w_run w))) as [[[[a b0] k0] l]|] eqn:E; [|discriminate E1].
  injection E1 as -> -> -> _. exists c, r, b, k, l, ds'. split; [exact E2|]. split; [reflexivity|].
  exact (wpl_at _ _ _ _ _ _ _ _ _ _ _ (next_seen FL (w_cpu w) Hw) E).
Qed.
Lemma exec_dbus_went s w w' s' ds : wf (w_cpu w) -> exec_dbus FL mask bits dv s w = Done (w', s', ds) -> exists l, went w l w' /\ s' = last_irq_data l s /\ ds = debugs l.
Proof.
  intros Hw E. destruct (exec_runs w Hw) as (c & r & b & k & l & ds0 & E1 & E2 & SN). unfold exec_dbus in E. rewrite run_runl, debug_bus_runs, E2 in E. cbn [captured] in E.
  unfold with_bus in E. destruct b as [b|]; [|discriminate E]. exists l. destruct r as [r|].
  - destruct r; try discriminate E. injection E as <- <- <-. split; [|split; reflexivity]. eexists c, (Some BHalt), (Some b), k, ds0. split; [exact E1|]. split; [exact E2|]. split; [auto|]. split; [reflexivity|]. split; [discriminate|exact SN].
  - injection E as <- <- <-. split; [|split; reflexivity]. eexists c, None, (Some b), k, ds0. split; [exact E1|]. split; [exact E2|]. split; [auto|]. split; [reflexivity|]. split; [discriminate|exact SN].
Qed.
Lemma exec_bus_went dbg w w' ds : wf (w_cpu w) -> exec_bus FL mask bits dv dbg w = Done (w', ds) -> exists l, went w l w' /\ (dbg = true -> ds = debugs l).
Proof.
  intros Hw E. destruct (exec_runs w Hw) as (c & r & b & k & l & ds0 & E1 & E2 & SN). unfold exec_bus in E.
  assert (G : exists ds2, run H (execute_next FL dbg (w_cpu w)) (w_bus w) (rn_clock (w_run w)) = Some ((c, r), b, k, ds2) /\ (dbg = true -> ds2 = debugs l)).
  { destruct dbg; [|exists ds0; split; [exact E1|discriminate]]. exists (debugs l). split; [|reflexivity]. now rewrite run_runl, E2. }
  destruct G as (ds2 & G & GD). rewrite G in E.
  unfold with_bus in E. destruct b as [b|]; [|discriminate E]. exists l. destruct r as [r|].
  - destruct r; try discriminate E. injection E as <- <-. split; [|exact GD]. eexists c, (Some BHalt), (Some b), k, ds0. split; [exact E1|]. split; [exact E2|]. split; [auto|]. split; [reflexivity|]. split; [discriminate|exact SN].
  - injection E as <- <-. split; [|exact GD]. eexists c, None, (Some b), k, ds0. split; [exact E1|]. split; [exact E2|]. split; [auto|]. split; [reflexivity|]. split; [discriminate|exact SN].
Qed.
Lemma went_seen w l w' : went w l w' -> exists r, seen (w_cpu w) (w_cpu w', r) l /\ rn_limit (w_run w') = rn_limit (w_run w) /\ rn_frame (w_run w') = rn_frame (w_run w).
Proof. intros (c & r & b & k & ds & _ & _ & _ & -> & _ & SN). exists r. auto. Qed.
(** With the end of the frame, that is a tick. *)
Definition closed (lim : Z) w w' : Prop :=
  w_cpu w' = w_cpu w /\ rn_clock (w_run w') = rn_clock (w_run w) /\ rn_frame (w_run w') = rn_frame (w_run w).
Lemma went_tick lim w l w1 w2 : went w l w1 -> (if past lim w1 then end_frame dv lim w1 else Done w1) = Done w2 -> tick lim w l w2 /\ closed lim w1 w2.
Proof.
  intros (c & r & b & k & ds & E1 & E2 & HR & -> & HB & SN) E. unfold past in E. cbn [w_run rn_clock] in E. destruct (lim <=? tc_cur k) eqn:PL.
  - unfold end_frame, with_bus in E. cbn [w_run rn_clock rn_limit rn_frame w_cpu w_bus] in E. destruct (bus_frame_end dv (tc_cur k) b) as [b2|] eqn:BE; [|discriminate E]. injection E as <-.
    split; [|repeat split]. exists c, r, b, k, ds. rewrite PL, BE. repeat split; try assumption; discriminate.
  - injection E as <-. split; [|repeat split]. exists c, r, b, k, ds. rewrite PL. repeat split; try assumption.
Qed.

(** ** What is shown *)
Lemma seen_unanswered (l : log) : Forall not_ack l -> unanswered l.
Proof. intros F p t v w HI. rewrite Forall_forall in F. exact (F _ HI). Qed.
Lemma answered_last (l : log) v s t p t' n l' : l = KTs t :: EIsIrq t true :: KIrq p t' :: EIrqData p t' v n :: l' -> Forall not_ack l' -> answered v l /\ last_irq_data l s = Some v.
Proof. intros -> F. split; [do 5 eexists; reflexivity|]. exact (last_irq_na l' (Some v) F). Qed.
Lemma code3 (d : CpuDebug) : well_described d -> dprefix d = None -> hd_error (dcode d) = Some 0xC3 -> exists lo hi, dcode d = [0xC3; lo; hi].
Proof.
  intros (c & bs & E & _ & _ & LN & _) DP HD. rewrite DP in *. cbn [pbyte app] in E. rewrite E in HD. injection HD as ->. cbn in LN.
  destruct bs as [|lo [|hi [|]]]; cbn in LN; try lia. eauto.
Qed.
Lemma code1 (d : CpuDebug) : well_described d -> dprefix d = None -> hd_error (dcode d) = Some 0xFF -> dcode d = [0xFF].
Proof.
  intros (c & bs & E & _ & _ & LN & _) DP HD. rewrite DP in *. cbn [pbyte app] in E. rewrite E in HD. injection HD as ->. cbn in LN.
  destruct bs as [|lo bs]; [exact E|]. cbn in LN. lia.
Qed.
(** Either there is a report, and the result is as it should be; or the CPU is halted, and there is none; or only a prefix was read. *)
Lemma seen_shown c c' r (l : log) : seen c (c', r) l -> wf c ->
  (exists d0, debugs l = [d0] /\ (exists d, (match last_irq_data l None with Some v => irq_debug_update v (pc c) c' (Some d0) | None => Some (Some d0) end) = Some d /\ shown c c' l d) /\
     well_described d0 /\ Forall byte (dcode d0)) \/
  (debugs l = [] /\ halt c = true /\ halt c' = true /\ last_irq_data l None = None /\ shown c c' l None) \/
  (debugs l = [] /\ prefix c' <> None /\ halt c' = false /\ (Forall not_ack l \/ prefix c = None /\ exists v, answered v l)).
Proof.
  intros [W [(t & p & t' & v & w & l' & E & BV & NA & AL & X)|[(Hh & E & _ & DB & NA)|(Hh & NA & code & BC & X)]]] Hw; cbn [fst snd] in *.
  - destruct (answered_last l v None _ _ _ _ _ E NA) as [AN LQ]. destruct (is_prefix (fst (injected c v))); [right; right; intuition eauto using (allowed_px c)|]. left. destruct X as (d & DB & WD & DP & HD & FB & KEEP). exists d. split; [exact DB|]. split; [|split; [exact WD|exact FB]].
    rewrite LQ. unfold irq_debug_update. destruct (im c) eqn:IM.
    + assert (G : exists d1, match im c' with Mode2 => match dcode d with _ :: code => Some (Some (mkDebug code "IRQ#" (pc c) (dprefix d) (ASingle (DImm16 (mk16 (get_i c') v))))) | [] => None end | _ => Some (Some d) end = Some d1 /\ (im c' <> Mode2 -> d1 = Some d)).
      { destruct (im c'); [eexists; split; [reflexivity|reflexivity]..|]. destruct (dcode d) as [|op r0]; [discriminate HD|]. eexists; split; [reflexivity|congruence]. }
      destruct G as (d1 & -> & G). exists d1. split; [reflexivity|]. left. exists v, d. rewrite IM. auto 6.
    + destruct KEEP as [-> _]; [discriminate|]. eexists. split; [reflexivity|]. left. exists v, d. rewrite IM. unfold injected in HD. rewrite IM in HD. auto 7 using code1.
    + destruct KEEP as [-> KI]; [discriminate|]. unfold injected in HD. rewrite IM in HD. destruct (code3 d WD DP HD) as (lo & hi & CD). rewrite CD. eexists. split; [reflexivity|].
      left. exists v, d. rewrite IM. split; [exact AN|]. split; [exact BV|]. split; [exact DB|]. split; [exact WD|]. exists lo, hi. split; [exact CD|]. unfold irq_shown. rewrite DP, KI. reflexivity.
  - right. left. split; [exact DB|]. split; [exact Hh|]. subst c'. split; [exact Hh|]. split; [now apply (last_irq_na l None)|]. right. left. split; [exact Hh|]. split; [now apply seen_unanswered|reflexivity].
  - destruct (is_prefix code); [right; right; intuition|]. left. destruct X as (d & R & DP & WD & FB). exists d. split; [exact (debugs_reported _ _ _ _ R)|]. split; [|split; [exact WD|exact FB]].
    rewrite (last_irq_na l None NA). eexists. split; [reflexivity|]. right. right. split; [exact Hh|]. split; [now apply seen_unanswered|].
    exists d, (used_prefix (prefix c) code). split; [reflexivity|]. split; [exact R|]. split; [exact DP|]. split; [|exact WD]. unfold used_prefix. destruct (indexable code); auto.
Qed.

(** ** Before the loops *)
Lemma wrap_second w w0 : fits w -> check_wrap_next_second dv w = Done w0 -> second_over dv w w0.
Proof.
  intros [F1 F2] E. unfold check_wrap_next_second in E. unfold second_over, check_wrap_second, mul32 in *. destruct w as [[k lim fr] c b]. cbn [w_run rn_clock rn_limit rn_frame w_cpu w_bus] in *.
  destruct (2 * tc_hz k <? 2 ^ 32); [|discriminate E]. cbn [checked] in E. destruct (2 * tc_hz k <? tc_cur k) eqn:W.
  - cbn [checked tc_hz] in E. unfold sub32 in E. destruct (tc_hz k <=? lim); [|discriminate E]. cbn [checked] in E. unfold with_bus in E. destruct (bus_next_second dv (tc_hz k) b); [|discriminate E].
    injection E as <-. do 3 f_equal. unfold u32. apply Z.mod_small. lia.
  - cbn [checked] in E. unfold with_bus in E. destruct b; [|discriminate E]. injection E as <-. reflexivity.
Qed.
Lemma second_cpu w w0 : second_over dv w w0 -> w_cpu w0 = w_cpu w.
Proof. unfold second_over. destruct (_ <? _); intros ->; reflexivity. Qed.
Lemma add32_eq a b x : add32 a b = Some x -> x = a + b.
Proof. unfold add32. destruct (_ <? _); [|discriminate]. now injection 1. Qed.
Lemma prefix_debug_shown px p : prefix_debug px p = prefix_shown px p.
Proof. destruct px; reflexivity. Qed.

(** ** Single steps *)
Lemma debug_step_spec n w w' d t : wf (w_cpu w) -> fits w -> debug_step FL mask bits dv n w = Done (w', (d, t)) ->
  exists w0 lim, second_over dv w w0 /\ lim = rn_limit (w_run w0) + rn_frame (w_run w0) /\ t = Z.max 0 (clk w' - clk w0) /\
    ((exists l, tick lim w0 l w' /\ shown (w_cpu w0) (w_cpu w') l d) \/
     (exists l w1, tick lim w0 l w1 /\ debugs l = [] /\ prefix (w_cpu w1) <> None /\
        ((exists px, prefix (w_cpu w0) = Some px /\ w' = w1 /\ d = Some (prefix_shown px (pc (w_cpu w0)))) \/
         (prefix (w_cpu w0) = None /\ exists l2, tick (if lim <=? clk w1 then lim + rn_frame (w_run w0) else lim) w1 l2 w' /\ unanswered l2 /\
            (unanswered l -> debugs l2 <> [] /\ shown (w_cpu w1) (w_cpu w') l2 d \/
              debugs l2 = [] /\ exists px, prefix (w_cpu w1) = Some px /\ d = Some (prefix_shown px (pc (w_cpu w0)))))))).
Proof.
  intros Hw HF E. unfold debug_step, oseq, checked in E. destruct (check_wrap_next_second dv w) as [| |w0] eqn:E0; [discriminate E..|].
  pose proof (wrap_second _ _ HF E0) as SO. rewrite <- (second_cpu _ _ SO) in Hw. clear E0.
  destruct (add32 (rn_limit (w_run w0)) (rn_frame (w_run w0))) as [lim|] eqn:EL; [|discriminate E]. apply add32_eq in EL.
  exists w0, lim. split; [exact SO|]. split; [exact EL|]. clear EL SO HF w.
  destruct n as [|n]; [discriminate E|]. cbn [step_loop oseq] in E.
  destruct (exec_dbus FL mask bits dv None w0) as [| |[[w1 s1] ds]] eqn:E1; [discriminate E..|]. cbn [oseq] in E.
  destruct (exec_dbus_went _ _ _ _ _ Hw E1) as (l & WT & -> & ->). clear E1.
  destruct (went_seen _ _ _ WT) as (r & SN & _ & FR).
  assert (G : exists w2, (if past lim w1 then end_frame dv lim w1 else Done w1) = Done w2 /\
    match (if negb (is_none (last_report (debugs l) None)) || halt (w_cpu w2) then Done (w2, last_irq_data l None, last_report (debugs l) None)
           else if is_none (prefix (w_cpu w2)) then Panicked
           else match prefix (w_cpu w0) with
             | Some px => Done (w2, last_irq_data l None, Some (prefix_debug px (pc (w_cpu w0))))
             | None => step_loop FL mask bits dv n (if past lim w1 then lim + rn_frame (w_run w1) else lim) (last_irq_data l None) (last_report (debugs l) None) (prefix (w_cpu w2)) (pc (w_cpu w0)) w2
             end) with Panicked => Panicked | More => More | Done (w, s, dbg) =>
       match match s with Some data => irq_debug_update data (pc (w_cpu w0)) (w_cpu w) dbg | None => Some dbg end with None => Panicked | Some dbg => Done (w, (dbg, elapsed (clk w0) w)) end end = Done (w', (d, t))).
  { destruct (past lim w1).
    - unfold checked in E. destruct (add32 lim (rn_frame (w_run w1))) as [l2|] eqn:EA; [|discriminate E]. apply add32_eq in EA. subst l2. destruct (end_frame dv lim w1) as [| |w2]; [discriminate E..|]. exists w2. split; [reflexivity|]. exact E.
    - exists w1. split; [reflexivity|]. exact E. }
  clear E. destruct G as (w2 & E2 & E). destruct (went_tick _ _ _ _ _ WT E2) as [TK (C1 & C2 & C3)]. clear E2. rewrite <- C1 in SN. pose proof (proj1 SN) as Hw2. cbn [fst] in Hw2.
  destruct (seen_shown _ _ _ _ SN Hw) as [(d0 & DB & (d1 & EQ & SH) & WD & FB)|[(DB & _ & HH & LQ & SH)|(DB & PX & HH & NA)]]; rewrite DB in E; cbn [last_report fold_left is_none negb orb] in E.
  - rewrite EQ in E. injection E as <- <- <-. split; [reflexivity|]. left. exists l. split; [exact TK|exact SH].
  - rewrite HH, LQ in E. injection E as <- <- <-. split; [reflexivity|]. left. exists l. split; [exact TK|exact SH].
  - rewrite HH in E. cbn [orb] in E. destruct (prefix (w_cpu w2)) as [px2|] eqn:P2; [clear PX|congruence]. cbn [is_none] in E.
    destruct (prefix (w_cpu w0)) as [px|] eqn:P0.
    + assert (LQ : last_irq_data l None = None) by (apply last_irq_na; destruct NA as [NA|[NA _]]; [exact NA|discriminate NA]). rewrite LQ in E. injection E as <- <- <-. split; [reflexivity|].
      right. exists l, w2. split; [exact TK|]. split; [exact DB|]. split; [congruence|]. left. exists px. rewrite prefix_debug_shown. auto.
    + destruct n as [|n]; [discriminate E|]. cbn [step_loop oseq] in E. destruct (exec_dbus FL mask bits dv (last_irq_data l None) w2) as [| |[[w3 s3] ds]] eqn:E1; [discriminate E..|]. cbn [oseq] in E.
      destruct (exec_dbus_went _ _ _ _ _ Hw2 E1) as (l2 & WT2 & -> & ->). clear E1. destruct (went_seen _ _ _ WT2) as (r2 & SN2 & _ & FR2).
      assert (NA2 : Forall not_ack l2).
      { destruct SN2 as [_ [(tt & p & t' & v & w & l' & _ & _ & _ & AL & _)|[(_ & _ & _ & _ & NA2)|(_ & NA2 & _)]]]; [|exact NA2..]. apply allowed_px in AL. congruence. }
      rewrite (last_irq_na l2 _ NA2) in E.
      assert (LE : past lim w1 = (lim <=? clk w2)) by (unfold past; now rewrite C2). rewrite LE, FR in E. set (lim2 := if lim <=? clk w2 then lim + rn_frame (w_run w0) else lim) in *.
      assert (G : exists w4, (if past lim2 w3 then end_frame dv lim2 w3 else Done w3) = Done w4 /\
        match (if negb (is_none (last_report (debugs l2) None)) || halt (w_cpu w4) then Done (w4, last_irq_data l None, last_report (debugs l2) None)
           else if is_none (prefix (w_cpu w4)) then Panicked
           else Done (w4, last_irq_data l None, Some (prefix_debug px2 (pc (w_cpu w0)))) ) with Panicked => Panicked | More => More | Done (w, s, dbg) =>
       match match s with Some data => irq_debug_update data (pc (w_cpu w0)) (w_cpu w) dbg | None => Some dbg end with None => Panicked | Some dbg => Done (w, (dbg, elapsed (clk w0) w)) end end = Done (w', (d, t))).
      { destruct (past lim2 w3).
        - unfold checked in E. destruct (add32 lim2 (rn_frame (w_run w3))) as [l3|] eqn:EA; [|discriminate E]. destruct (end_frame dv lim2 w3) as [| |w4]; [discriminate E..|]. exists w4. split; [reflexivity|]. exact E.
        - exists w3. split; [reflexivity|]. exact E. }
      clear E. destruct G as (w4 & E4 & E). destruct (went_tick _ _ _ _ _ WT2 E4) as [TK2 (C1' & C2' & C3')]. rewrite <- C1' in SN2.
      assert (FIN : exists dbg, w4 = w' /\ t = elapsed (clk w0) w4 /\ (if negb (is_none (last_report (debugs l2) None)) || halt (w_cpu w4) then dbg = last_report (debugs l2) None else dbg = Some (prefix_debug px2 (pc (w_cpu w0)))) /\
        (last_irq_data l None = None -> d = dbg)).
      { destruct (negb (is_none (last_report (debugs l2) None)) || halt (w_cpu w4)).
        - destruct (match last_irq_data l None with Some data => irq_debug_update data (pc (w_cpu w0)) (w_cpu w4) (last_report (debugs l2) None) | None => Some (last_report (debugs l2) None) end) eqn:EU; [|discriminate E].
          injection E as <- <- <-. eexists. split; [reflexivity|]. split; [reflexivity|]. split; [reflexivity|]. intros LQ. rewrite LQ in EU. congruence.
        - destruct (is_none (prefix (w_cpu w4))); [discriminate E|].
          destruct (match last_irq_data l None with Some data => irq_debug_update data (pc (w_cpu w0)) (w_cpu w4) (Some (prefix_debug px2 (pc (w_cpu w0)))) | None => Some (Some (prefix_debug px2 (pc (w_cpu w0)))) end) eqn:EU; [|discriminate E].
          injection E as <- <- <-. eexists. split; [reflexivity|]. split; [reflexivity|]. split; [reflexivity|]. intros LQ. rewrite LQ in EU. congruence. }
      clear E. destruct FIN as (dbg & <- & -> & FD & DD). split; [reflexivity|]. right. exists l, w2. split; [exact TK|]. split; [exact DB|]. split; [congruence|]. right. split; [reflexivity|].
      exists l2. split; [exact TK2|]. split; [now apply seen_unanswered|]. intros UA.
      assert (LQ : last_irq_data l None = None).
      { apply last_irq_na. destruct NA as [NA|[_ [v (? & ? & ? & ? & ? & ->)]]]; [exact NA|]. exfalso. eapply UA. right. right. right. left. reflexivity. }
      specialize (DD LQ). subst dbg.
      destruct (seen_shown _ _ _ _ SN2 Hw2) as [(d0 & DB2 & (d1 & EQ & SH) & _)|[(_ & HX & _)|(DB2 & _ & HH2 & _)]]; [| |].
      * left. rewrite DB2 in *. split; [discriminate|]. cbn in FD. rewrite (last_irq_na l2 None NA2) in EQ. injection EQ as <-. now rewrite FD.
      * congruence.
      * right. split; [exact DB2|]. exists px2. split; [exact P2|]. rewrite DB2, HH2 in FD. cbn in FD. now rewrite FD, prefix_debug_shown.
Qed.
(** It takes at most two turns. *)
Lemma step_loop_enough n : forall lim s dbg pfx p w, (pfx = None -> 1 <= n)%nat -> step_loop FL mask bits dv (S n) lim s dbg pfx p w <> More.
Proof.
  induction n as [|n IH]; intros lim s dbg pfx p w HN; cbn [step_loop].
  all: assert (ND : exec_dbus FL mask bits dv s w <> More) by
    (unfold exec_dbus, with_bus; repeat match goal with |- context [match ?x with _ => _ end] => destruct x; try discriminate end).
  all: destruct (exec_dbus FL mask bits dv s w) as [| |[[w1 s1] ds]]; [discriminate|congruence|]; cbn [oseq].
  all: assert (NE : (if past lim w1 then checked (add32 lim (rn_frame (w_run w1))) (fun l2 => oseq (end_frame dv lim w1) (fun w => Done (w, l2))) else Done (w1, lim)) <> More) by
    (unfold end_frame, with_bus, checked; destruct (past lim w1); [|discriminate]; destruct (add32 _ _); [|discriminate]; destruct (bus_frame_end _ _ _); discriminate).
  all: destruct (if past lim w1 then _ else _) as [| |[w2 l2]]; [discriminate|congruence|]; cbn [oseq].
  all: destruct (negb (is_none (last_report ds dbg)) || halt (w_cpu w2)); [discriminate|]; destruct (prefix (w_cpu w2)) as [px|] eqn:P; [|discriminate]; cbn [is_none].
  all: destruct pfx as [q|]; [discriminate|]. 1: specialize (HN eq_refl); lia.
  exact (IH l2 s1 (last_report ds dbg) (Some px) p w2 ltac:(discriminate)).
Qed.
Lemma debug_step_enough n w : debug_step FL mask bits dv (S (S n)) w <> More.
Proof.
  unfold debug_step. destruct (check_wrap_next_second dv w) as [| |w0] eqn:E0; [discriminate| |]; cbn [oseq].
  - unfold check_wrap_next_second, checked, with_bus in E0. repeat match type of E0 with context [match ?x with _ => _ end] => destruct x; try discriminate E0 end.
  - unfold checked. destruct (add32 _ _) as [lim|]; [|discriminate].
    pose proof (step_loop_enough (S n) lim None None (prefix (w_cpu w0)) (pc (w_cpu w0)) w0) as X.
    destruct (step_loop FL mask bits dv (S (S n)) lim None None (prefix (w_cpu w0)) (pc (w_cpu w0)) w0) as [| |[[w1 s] dbg]]; [discriminate|exfalso; apply X; [lia|reflexivity]|].
    cbn [oseq]. destruct s as [v|]; [|discriminate]. destruct (irq_debug_update _ _ _ _); discriminate.
Qed.

(** ** Up to an interrupt *)
Lemma ticks_snoc lim w tr w1 l w' : ticks lim w tr w1 -> tick lim w1 l w' -> ticks lim w (tr ++ [(w1, l, w')]) w'.
Proof. induction 1 as [|w l1 w2 tr w1 T1 TS IH]; intros T; cbn [app]; econstructor; eauto. constructor. Qed.
Lemma unanswered_last (l : log) : last_irq_data l None = None -> unanswered l.
Proof.
  intros E p t v n HI. assert (G : forall (l : log) s, In (EIrqData p t v n) l -> last_irq_data l s <> None).
  { clear. intros l. induction l as [|e l IH]; intros s HI; [destruct HI|]. destruct HI as [->|HI].
    - cbn [last_irq_data fold_left]. change (last_irq_data l (Some v) <> None). clear. generalize v. induction l as [|e l IH]; intros x; [discriminate|]. cbn [last_irq_data fold_left]. destruct e; apply IH.
    - cbn [last_irq_data fold_left]. destruct e; now apply IH. }
  exact (G l None HI E).
Qed.
Lemma int_loop_spec n : forall lim start dbg w w' d t, wf (w_cpu w) -> int_loop FL mask bits dv n lim start None dbg w = Done (w', (d, t)) ->
  exists tr w1 l, ticks lim w (tr ++ [(w1, l, w')]) w' /\ (forall a la b, In (a, la, b) tr -> unanswered la /\ clk b < lim) /\ t = Z.max 0 (clk w' - start) /\
    (unanswered l /\ lim <= clk w' /\ d = None \/ (exists v, answered v l) /\ (debugs l <> [] -> shown (w_cpu w1) (w_cpu w') l d)).
Proof.
  induction n as [|n IH]; intros lim start dbg w w' d t Hw E; [discriminate E|]. cbn [int_loop] in E.
  destruct (exec_dbus FL mask bits dv None w) as [| |[[w1 s1] ds]] eqn:E1; [discriminate E..|]. cbn [oseq] in E.
  destruct (exec_dbus_went _ _ _ _ _ Hw E1) as (l & WT & -> & ->). clear E1. destruct (went_seen _ _ _ WT) as (r & SN & _ & FR).
  destruct (if past lim w1 then end_frame dv lim w1 else Done w1) as [| |w2] eqn:E2; [discriminate E..|]. cbn [oseq] in E.
  destruct (went_tick _ _ _ _ _ WT E2) as [TK (C1 & C2 & C3)]. clear E2. rewrite <- C1 in SN. pose proof (proj1 SN) as Hw2. cbn [fst] in Hw2.
  assert (LE : past lim w1 = (lim <=? clk w2)) by (unfold past; now rewrite C2). rewrite LE in E.
  destruct (last_irq_data l None) as [v|] eqn:LQ.
  - unfold checked in E. destruct (irq_debug_update v (pc (w_cpu w)) (w_cpu w2) (last_report (debugs l) dbg)) as [d1|] eqn:EU; [|discriminate E]. injection E as <- <- <-.
    exists [], w, l. split; [econstructor; [exact TK|constructor]|]. split; [intros a la b []|]. split; [reflexivity|]. right. split.
    + destruct SN as [_ [(tt & p & t' & v' & n' & l' & El & _ & NA & _)|[(_ & _ & _ & _ & NA)|(_ & NA & _)]]]; [|rewrite (last_irq_na l None NA) in LQ; discriminate LQ..].
      exists v'. do 5 eexists. exact El.
    + intros ND. destruct (seen_shown _ _ _ _ SN Hw) as [(d0 & DB & (d2 & EQ & SH) & _)|[(DB & _)|(DB & _)]]; [|congruence..]. rewrite LQ in EQ. rewrite DB in EU. cbn in EU. rewrite EU in EQ. now injection EQ as ->.
  - destruct (lim <=? clk w2) eqn:PL.
    + injection E as <- <- <-. exists [], w, l. split; [econstructor; [exact TK|constructor]|]. split; [intros a la b []|]. split; [reflexivity|]. left. split; [now apply unanswered_last|]. split; [lia|reflexivity].
    + destruct (IH _ _ _ _ _ _ _ Hw2 E) as (tr & w3 & l3 & TS & HT & Ht & HR). exists ((w, l, w2) :: tr), w3, l3. split; [econstructor; [exact TK|exact TS]|].
      split; [|split; [exact Ht|exact HR]]. intros a la b [EQ|HI]; [|now apply HT with a]. injection EQ as <- <- <-. split; [now apply unanswered_last|lia].
Qed.
Lemma runto_int_spec n w w' d t : wf (w_cpu w) -> fits w -> debug_runto_int FL mask bits dv n w = Done (w', (d, t)) ->
  exists w0 lim tr w1 l, second_over dv w w0 /\ lim = rn_limit (w_run w0) + rn_frame (w_run w0) /\ ticks lim w0 (tr ++ [(w1, l, w')]) w' /\
    (forall a la b, In (a, la, b) tr -> unanswered la /\ clk b < lim) /\ t = Z.max 0 (clk w' - clk w0) /\
    (unanswered l /\ lim <= clk w' /\ d = None \/ (exists v, answered v l) /\ (debugs l <> [] -> shown (w_cpu w1) (w_cpu w') l d)).
Proof.
  intros Hw HF E. unfold debug_runto_int, oseq, checked in E. destruct (check_wrap_next_second dv w) as [| |w0] eqn:E0; [discriminate E..|].
  pose proof (wrap_second _ _ HF E0) as SO. rewrite <- (second_cpu _ _ SO) in Hw.
  destruct (add32 (rn_limit (w_run w0)) (rn_frame (w_run w0))) as [lim|] eqn:EL; [|discriminate E]. apply add32_eq in EL.
  destruct (int_loop_spec _ _ _ _ _ _ _ _ Hw E) as (tr & w1 & l & X). exists w0, lim, tr, w1, l. tauto.
Qed.

(** ** Up to a return *)
Lemma ret_loop_spec n : forall lim start w w' d t, wf (w_cpu w) -> ret_loop FL mask bits dv n lim start None w = Done (w', (d, t)) ->
  exists tr w1 l, ticks lim w (tr ++ [(w1, l, w')]) w' /\ (forall a la b, In (a, la, b) tr -> clk b < lim /\ forall x, In x (debugs la) -> ~ returns x (w_cpu b)) /\
    t = Z.max 0 (clk w' - start) /\
    match d with
    | Some d => debugs l = [d] /\ returns d (w_cpu w')
    | None => lim <= clk w' /\ forall x, In x (debugs l) -> ~ returns x (w_cpu w')
    end.
Proof.
  induction n as [|n IH]; intros lim start w w' d t Hw E; [discriminate E|]. cbn [ret_loop] in E.
  destruct (exec_bus FL mask bits dv true w) as [| |[w1 ds]] eqn:E1; [discriminate E..|]. cbn [oseq] in E.
  destruct (exec_bus_went _ _ _ _ Hw E1) as (l & WT & DS). specialize (DS eq_refl). subst ds. clear E1. destruct (went_seen _ _ _ WT) as (r & SN & _ & FR).
  unfold checked in E. destruct (ret_report (debugs l) None) as [dbg|] eqn:RR; [|discriminate E].
  destruct (if past lim w1 then end_frame dv lim w1 else Done w1) as [| |w2] eqn:E2; [discriminate E..|]. cbn [oseq] in E.
  destruct (went_tick _ _ _ _ _ WT E2) as [TK (C1 & C2 & C3)]. clear E2. rewrite <- C1 in SN. pose proof (proj1 SN) as Hw2. cbn [fst] in Hw2.
  assert (LE : past lim w1 = (lim <=? clk w2)) by (unfold past; now rewrite C2). rewrite LE in E. clear LE.
  set (dbg' := match dbg with Some deb => if not_taken (dcode deb) (w_cpu w2) then None else dbg | None => None end) in E.
  assert (G : match dbg' with Some d => debugs l = [d] /\ returns d (w_cpu w2) | None => forall x, In x (debugs l) -> ~ returns x (w_cpu w2) end).
  { subst dbg'. destruct (seen_shown _ _ _ _ SN Hw) as [(d0 & DB & _ & WD & FB)|[(DB & _)|(DB & _)]]; rewrite DB in *.
    2,3: cbn in RR; injection RR as <-; intros x [].
    destruct (just_ret d0 (w_cpu w2) WD FB) as (b & _ & IR & Hb & HB). unfold ret_report in RR. cbn [fold_left] in RR. rewrite IR in RR. injection RR as <-.
    destruct (ret_name (dmnemonic d0)); cbn [andb] in Hb.
    - destruct (not_taken (dcode d0) (w_cpu w2)); cbn [negb] in Hb; subst b.
      + intros x [<-|[]] HX. apply HB in HX. discriminate HX.
      + split; [reflexivity|now apply HB].
    - subst b. intros x [<-|[]] HX. apply HB in HX. discriminate HX. }
  clearbody dbg'. clear RR. destruct dbg' as [d'|]; cbn [is_none negb] in E; [rewrite orb_true_r in E|rewrite orb_false_r in E; destruct (lim <=? clk w2) eqn:PL].
  - injection E as <- <- <-. exists [], w, l. split; [econstructor; [exact TK|constructor]|]. split; [intros a la b []|]. split; [reflexivity|]. exact G.
  - injection E as <- <- <-. exists [], w, l. split; [econstructor; [exact TK|constructor]|]. split; [intros a la b []|]. split; [reflexivity|]. split; [lia|exact G].
  - destruct (IH _ _ _ _ _ _ Hw2 E) as (tr & w3 & l3 & TS & HT & HR). exists ((w, l, w2) :: tr), w3, l3. split; [econstructor; [exact TK|exact TS]|].
    split; [|exact HR]. intros a la b [EQ|HI]; [|now apply HT with a]. injection EQ as <- <- <-. split; [lia|exact G].
Qed.
Lemma runto_ret_spec n w w' d t : wf (w_cpu w) -> fits w -> debug_runto_ret FL mask bits dv n w = Done (w', (d, t)) ->
  exists w0 lim tr w1 l, second_over dv w w0 /\ lim = rn_limit (w_run w0) + rn_frame (w_run w0) /\ ticks lim w0 (tr ++ [(w1, l, w')]) w' /\
    (forall a la b, In (a, la, b) tr -> clk b < lim /\ forall x, In x (debugs la) -> ~ returns x (w_cpu b)) /\ t = Z.max 0 (clk w' - clk w0) /\
    match d with
    | Some d => debugs l = [d] /\ returns d (w_cpu w')
    | None => lim <= clk w' /\ forall x, In x (debugs l) -> ~ returns x (w_cpu w')
    end.
Proof.
  intros Hw HF E. unfold debug_runto_ret, oseq, checked in E. destruct (check_wrap_next_second dv w) as [| |w0] eqn:E0; [discriminate E..|].
  pose proof (wrap_second _ _ HF E0) as SO. rewrite <- (second_cpu _ _ SO) in Hw.
  destruct (add32 (rn_limit (w_run w0)) (rn_frame (w_run w0))) as [lim|] eqn:EL; [|discriminate E]. apply add32_eq in EL.
  destruct (ret_loop_spec _ _ _ _ _ _ _ Hw E) as (tr & w1 & l & X). exists w0, lim, tr, w1, l. tauto.
Qed.

(** ** Up to a breakpoint *)
Section B.
Variable search : list Z -> Z -> nat + nat.
Variable brkpts : list Z.
(** No breakpoint from [p] up to, but not including, [next]. *)
Definition clear_to (p next : Z) : Prop := forall b, In b brkpts -> p <= b -> next <= b.
Lemma brkpt_loop_spec n : searches search brkpts -> ascending brkpts -> forall lim start next p w w' r t, wf (w_cpu w) -> p = pc (w_cpu w) ->
  match next with Some x => clear_to p x /\ ~ In p brkpts /\ (In x brkpts \/ x = 0xFFFF) | None => True end ->
  brkpt_loop FL mask bits dv search n lim start brkpts next p w = Done (w', (r, t)) ->
  exists tr, ticks lim w tr w' /\ (forall a la b, In (a, la, b) tr -> ~ In (pc (w_cpu a)) brkpts) /\ t = Z.max 0 (clk w' - start) /\
    (forall tr1 a la b x tr2, tr = tr1 ++ (a, la, b) :: x :: tr2 -> lim <= clk b -> pc (w_cpu b) = 0xFFFF) /\
    match r with
    | Some i => nth_error brkpts i = Some (pc (w_cpu w'))
    | None => lim <= clk w' /\ tr <> []
    end.
Proof.
  intros HS HA. induction n as [|n IH]; intros lim start next p w w' r t Hw HP HN E; [discriminate E|]. cbn [brkpt_loop] in E. destruct next as [x|].
  2: { specialize (HS p). destruct (search brkpts p) as [i|i].
    - injection E as <- <- <-. exists []. split; [constructor|]. split; [intros a la b []|]. split; [reflexivity|]. split; [intros [|] ? ? ? ? ? EQ; discriminate EQ|]. now rewrite <- HP.
    - destruct HS as [S1 S2]. assert (NI : ~ In p brkpts).
      { intros HI. apply In_nth_error in HI as [j HJ]. destruct (Nat.lt_ge_cases j i) as [L|L]; [specialize (S1 j p L HJ)|specialize (S2 j p L HJ)]; lia. }
      assert (CL : clear_to p (nth i brkpts 0xFFFF)).
      { intros b HI LB. apply In_nth_error in HI as [j HJ]. destruct (Nat.lt_ge_cases j i) as [L|L]; [specialize (S1 j b L HJ); lia|].
        destruct (nth_error brkpts i) as [y|] eqn:EI; [|apply nth_error_None in EI; assert (j < List.length brkpts)%nat by (apply nth_error_Some; congruence); lia].
        rewrite (nth_error_nth _ _ _ EI). exact (HA i j y b L EI HJ). }
      refine (IH _ _ (Some (nth i brkpts 0xFFFF)) _ _ _ _ _ Hw HP _ E). split; [exact CL|]. split; [exact NI|].
      destruct (nth_error brkpts i) as [y|] eqn:EI; [left; rewrite (nth_error_nth _ _ _ EI); exact (nth_error_In _ _ EI)|right]. apply nth_overflow. now apply nth_error_None. }
  destruct HN as (CL & NI & HX). destruct (exec_bus FL mask bits dv false w) as [| |[w1 ds]] eqn:E1; [discriminate E..|]. cbn [oseq] in E.
  destruct (exec_bus_went _ _ _ _ Hw E1) as (l & WT & _). clear E1. destruct (went_seen _ _ _ WT) as (r1 & SN & _ & FR).
  assert (G : exists w2, (if past lim w1 then end_frame dv lim w1 else Done w1) = Done w2 /\
    (if past lim w1 then if pc (w_cpu w1) =? x then brkpt_loop FL mask bits dv search n lim start brkpts None (pc (w_cpu w1)) w2 else Done (w2, (None, elapsed start w2))
     else if (x <=? pc (w_cpu w1)) || (pc (w_cpu w1) <? p) then brkpt_loop FL mask bits dv search n lim start brkpts None (pc (w_cpu w1)) w2
     else brkpt_loop FL mask bits dv search n lim start brkpts (Some x) (pc (w_cpu w1)) w2) = Done (w', (r, t))).
  { destruct (past lim w1); [|exists w1; auto]. destruct (end_frame dv lim w1) as [| |w2]; [discriminate E..|]. exists w2. auto. }
  clear E. destruct G as (w2 & E2 & E). destruct (went_tick _ _ _ _ _ WT E2) as [TK (C1 & C2 & C3)]. clear E2. rewrite <- C1 in *. pose proof (proj1 SN) as Hw2. cbn [fst] in Hw2.
  assert (LE : past lim w1 = (lim <=? clk w2)) by (unfold past; now rewrite C2). rewrite LE in E. clear LE.
  assert (CONS : forall tr, ticks lim w2 tr w' -> (forall a la b, In (a, la, b) tr -> ~ In (pc (w_cpu a)) brkpts) ->
      (forall tr1 a la b y tr2, tr = tr1 ++ (a, la, b) :: y :: tr2 -> lim <= clk b -> pc (w_cpu b) = 0xFFFF) ->
      (lim <= clk w2 -> tr <> [] -> pc (w_cpu w2) = 0xFFFF) ->
      ticks lim w ((w, l, w2) :: tr) w' /\ (forall a la b, In (a, la, b) ((w, l, w2) :: tr) -> ~ In (pc (w_cpu a)) brkpts) /\
      (forall tr1 a la b y tr2, (w, l, w2) :: tr = tr1 ++ (a, la, b) :: y :: tr2 -> lim <= clk b -> pc (w_cpu b) = 0xFFFF)).
  { intros tr T1 T2 T3 T4. split; [econstructor; [exact TK|exact T1]|]. split.
    - intros a la b [EQ|HI]; [|now apply T2 with la b]. injection EQ as <- <- <-. now rewrite <- HP.
    - intros [|z tr1] a la b y tr2 EQ; cbn [app] in EQ.
      + injection EQ as <- <- <- ->. intros L. apply T4; [exact L|discriminate].
      + injection EQ as _ EQ. exact (T3 _ _ _ _ _ _ EQ). }
  destruct (lim <=? clk w2) eqn:PL; [destruct (Z.eqb_spec (pc (w_cpu w2)) x) as [EX|NX]|destruct ((x <=? pc (w_cpu w2)) || (pc (w_cpu w2) <? p)) eqn:OUT].
  - destruct (IH _ _ None _ _ _ _ _ Hw2 eq_refl I E) as (tr & T1 & T2 & Ht & T3 & T4). destruct (CONS tr T1 T2 T3) as (U1 & U2 & U3).
    { intros _ NE. rewrite EX. destruct HX as [HX|HX]; [|exact HX]. exfalso. destruct tr as [|[[a la] b] tr]; [congruence|].
      inversion T1; subst. apply (T2 _ _ _ (or_introl eq_refl)). exact HX. }
    eexists. split; [exact U1|]. split; [exact U2|]. split; [exact Ht|]. split; [exact U3|]. destruct r; [exact T4|]. split; [apply T4|discriminate].
  - injection E as <- <- <-. destruct (CONS [] (T_none _ _ _ _ _ _)) as (U1 & U2 & U3); [intros a la b []|intros [|] ? ? ? ? ? EQ; discriminate EQ|congruence|].
    eexists. split; [exact U1|]. split; [exact U2|]. split; [reflexivity|]. split; [exact U3|]. split; [lia|discriminate].
  - destruct (IH _ _ None _ _ _ _ _ Hw2 eq_refl I E) as (tr & T1 & T2 & Ht & T3 & T4). destruct (CONS tr T1 T2 T3) as (U1 & U2 & U3); [lia|].
    eexists. split; [exact U1|]. split; [exact U2|]. split; [exact Ht|]. split; [exact U3|]. destruct r; [exact T4|]. split; [apply T4|discriminate].
  - assert (NI2 : ~ In (pc (w_cpu w2)) brkpts) by (intros HI; specialize (CL _ HI ltac:(lia)); lia).
    assert (CL2 : clear_to (pc (w_cpu w2)) x) by (intros b HI LB; apply CL; [exact HI|lia]).
    destruct (IH _ _ (Some x) _ _ _ _ _ Hw2 eq_refl (conj CL2 (conj NI2 HX)) E) as (tr & T1 & T2 & Ht & T3 & T4). destruct (CONS tr T1 T2 T3) as (U1 & U2 & U3); [lia|].
    eexists. split; [exact U1|]. split; [exact U2|]. split; [exact Ht|]. split; [exact U3|]. destruct r; [exact T4|]. split; [apply T4|discriminate].
Qed.
Lemma run_until_spec n w w' r t : searches search brkpts -> ascending brkpts -> wf (w_cpu w) -> fits w -> run_until_brkpt FL mask bits dv search n brkpts w = Done (w', (r, t)) ->
  exists w0 lim tr, second_over dv w w0 /\ lim = rn_limit (w_run w0) + rn_frame (w_run w0) /\ ticks lim w0 tr w' /\
    (forall a la b, In (a, la, b) tr -> ~ In (pc (w_cpu a)) brkpts) /\ t = Z.max 0 (clk w' - clk w0) /\
    (forall tr1 a la b x tr2, tr = tr1 ++ (a, la, b) :: x :: tr2 -> lim <= clk b -> pc (w_cpu b) = 0xFFFF) /\
    match r with
    | Some i => nth_error brkpts i = Some (pc (w_cpu w'))
    | None => lim <= clk w' /\ tr <> []
    end.
Proof.
  intros HS HA Hw HF E. unfold run_until_brkpt, oseq, checked in E. destruct (check_wrap_next_second dv w) as [| |w0] eqn:E0; [discriminate E..|].
  pose proof (wrap_second _ _ HF E0) as SO. rewrite <- (second_cpu _ _ SO) in Hw.
  destruct (add32 (rn_limit (w_run w0)) (rn_frame (w_run w0))) as [lim|] eqn:EL; [|discriminate E]. apply add32_eq in EL.
  destruct (brkpt_loop_spec n HS HA _ _ None _ _ _ _ _ Hw eq_refl I E) as (tr & X). exists w0, lim, tr. tauto.
Qed.
End B.
End L.
