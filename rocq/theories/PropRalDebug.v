(** Property C63: the debugger of the example computer. *)
From Coq Require Import ZArith Bool String List Lia.
From Verif Require Import Base Parse Cpu Flavours Prog Trace Exec Demo Range SpecState SpecIsa SpecInt SpecDebug SpecDisasm IsaRun RalMemory RalBus RalRunner RalDebug SpecRalDebug
  RalDebugRet RalDebugProofs RalDebugTotal RalPreview.
Import ListNotations.
Open Scope list_scope.
Open Scope Z_scope.

(** A step of the debugger is one [execute_next] of the machine without a debugger, or two if the first one read a prefix only.  What it
    returns describes just what happened: the instruction executed, an interrupt or, if a prefix is followed by another one, the first
    of them.  Only after an interrupt in mode 0 whose first byte is a prefix nothing is said about it. *)
Theorem C63_step : forall Q D (FL : Flavour Q) mask bits (dv : dev D) n w w' d t, wf (w_cpu w) -> fits w ->
  debug_step FL mask bits dv n w = Done (w', (d, t)) ->
  exists w0 lim, second_over dv w w0 /\ lim = rn_limit (w_run w0) + rn_frame (w_run w0) /\ t = Z.max 0 (clk w' - clk w0) /\
    ((exists l, tick FL mask bits dv lim w0 l w' /\ shown (w_cpu w0) (w_cpu w') l d) \/
     (exists l w1, tick FL mask bits dv lim w0 l w1 /\ debugs l = [] /\ prefix (w_cpu w1) <> None /\
        ((exists px, prefix (w_cpu w0) = Some px /\ w' = w1 /\ d = Some (prefix_shown px (pc (w_cpu w0)))) \/
         (prefix (w_cpu w0) = None /\ exists l2, tick FL mask bits dv (if lim <=? clk w1 then lim + rn_frame (w_run w0) else lim) w1 l2 w' /\ unanswered l2 /\
            (unanswered l -> debugs l2 <> [] /\ shown (w_cpu w1) (w_cpu w') l2 d \/
              debugs l2 = [] /\ exists px, prefix (w_cpu w1) = Some px /\ d = Some (prefix_shown px (pc (w_cpu w0)))))))).
Proof. intros Q D FL mask bits dv. exact (debug_step_spec FL mask bits dv). Qed.
(** Two turns of its loop are enough. *)
Theorem C63_step_ends : forall Q D (FL : Flavour Q) mask bits (dv : dev D) n w, debug_step FL mask bits dv (S (S n)) w <> More.
Proof. intros Q D FL mask bits dv. exact (debug_step_enough FL mask bits dv). Qed.
(** And it gets as far as the machine does: if nothing overflows and the machine without a debugger can make one tick, and another one after a
    prefix, then so can the debugger. *)
Theorem C63_step_runs : forall Q D (FL : Flavour Q) mask bits (dv : dev D) n w w0 lim l w1, wf (w_cpu w) -> fits w -> second_over dv w w0 -> roomy w w0 ->
  lim = rn_limit (w_run w0) + rn_frame (w_run w0) -> 0 <= rn_frame (w_run w0) -> lim + 2 * rn_frame (w_run w0) < 2 ^ 32 -> tick FL mask bits dv lim w0 l w1 ->
  (prefix (w_cpu w1) <> None -> exists l2 w2, tick FL mask bits dv (if lim <=? clk w1 then lim + rn_frame (w_run w0) else lim) w1 l2 w2) ->
  exists w' d t, debug_step FL mask bits dv (S (S n)) w = Done (w', (d, t)).
Proof. intros Q D FL mask bits dv. exact (step_total FL mask bits dv). Qed.
(** Likewise the other runs, if the machine can run to the end of the frame; with breakpoints, if it is at none of them then, nor at FFFFh. *)
Theorem C63_runs : forall Q D (FL : Flavour Q) mask bits (dv : dev D) w w0 lim tr w', wf (w_cpu w) -> fits w -> second_over dv w w0 -> roomy w w0 ->
  lim = rn_limit (w_run w0) + rn_frame (w_run w0) -> lim < 2 ^ 32 -> ticks FL mask bits dv lim w0 tr w' -> tr <> [] -> lim <= clk w' ->
  (exists x, debug_runto_int FL mask bits dv (List.length tr) w = Done x) /\ (exists x, debug_runto_ret FL mask bits dv (List.length tr) w = Done x) /\
  forall search brkpts, ~ In (pc (w_cpu w')) brkpts -> pc (w_cpu w') <> 0xFFFF ->
    exists x, run_until_brkpt FL mask bits dv search (2 * List.length tr + 1) brkpts w = Done x.
Proof. intros Q D FL mask bits dv. exact (runs_total FL mask bits dv). Qed.
(** Running to an interrupt: stops after the first one accepted, or else at the end of the frame. *)
Theorem C63_int : forall Q D (FL : Flavour Q) mask bits (dv : dev D) n w w' d t, wf (w_cpu w) -> fits w ->
  debug_runto_int FL mask bits dv n w = Done (w', (d, t)) ->
  exists w0 lim tr w1 l, second_over dv w w0 /\ lim = rn_limit (w_run w0) + rn_frame (w_run w0) /\ ticks FL mask bits dv lim w0 (tr ++ [(w1, l, w')]) w' /\
    (forall a la b, In (a, la, b) tr -> unanswered la /\ clk b < lim) /\ t = Z.max 0 (clk w' - clk w0) /\
    (unanswered l /\ lim <= clk w' /\ d = None \/ (exists v, answered v l) /\ (debugs l <> [] -> shown (w_cpu w1) (w_cpu w') l d)).
Proof. intros Q D FL mask bits dv. exact (runto_int_spec FL mask bits dv). Qed.
(** Running to a return: stops after the first instruction that returns, or else at the end of the frame. *)
Theorem C63_ret : forall Q D (FL : Flavour Q) mask bits (dv : dev D) n w w' d t, wf (w_cpu w) -> fits w ->
  debug_runto_ret FL mask bits dv n w = Done (w', (d, t)) ->
  exists w0 lim tr w1 l, second_over dv w w0 /\ lim = rn_limit (w_run w0) + rn_frame (w_run w0) /\ ticks FL mask bits dv lim w0 (tr ++ [(w1, l, w')]) w' /\
    (forall a la b, In (a, la, b) tr -> clk b < lim /\ forall x, In x (debugs la) -> ~ returns x (w_cpu b)) /\ t = Z.max 0 (clk w' - clk w0) /\
    match d with
    | Some d => debugs l = [d] /\ returns d (w_cpu w')
    | None => lim <= clk w' /\ forall x, In x (debugs l) -> ~ returns x (w_cpu w')
    end.
Proof. intros Q D FL mask bits dv. exact (runto_ret_spec FL mask bits dv). Qed.
(** Running to a breakpoint: the program gets to none of them before it stops.  An index in the result is that of the breakpoint it is at.
    Otherwise the frame is over.  It goes on after the end of the frame at FFFFh only. *)
Theorem C63_brkpt : forall Q D (FL : Flavour Q) mask bits (dv : dev D) search brkpts n w w' r t, searches search brkpts -> ascending brkpts -> wf (w_cpu w) -> fits w ->
  run_until_brkpt FL mask bits dv search n brkpts w = Done (w', (r, t)) ->
  exists w0 lim tr, second_over dv w w0 /\ lim = rn_limit (w_run w0) + rn_frame (w_run w0) /\ ticks FL mask bits dv lim w0 tr w' /\
    (forall a la b, In (a, la, b) tr -> ~ In (pc (w_cpu a)) brkpts) /\ t = Z.max 0 (clk w' - clk w0) /\
    (forall tr1 a la b x tr2, tr = tr1 ++ (a, la, b) :: x :: tr2 -> lim <= clk b -> pc (w_cpu b) = 0xFFFF) /\
    match r with
    | Some i => nth_error brkpts i = Some (pc (w_cpu w'))
    | None => lim <= clk w' /\ tr <> []
    end.
Proof. intros Q D FL mask bits dv search brkpts. exact (run_until_spec FL mask bits dv search brkpts). Qed.
(** By its op-code, the debugger recognizes the reports of instructions that return or call. *)
Theorem C63_kinds : forall Q (c : cpu Q) d, well_described d -> Forall byte (dcode d) ->
  (exists b, was_just_a_ret d c = Some b /\ (b = true <-> returns d c)) /\ (exists b, was_just_a_call d c = Some b /\ (b = true <-> calls d c)).
Proof.
  intros Q c d WD FB. destruct (just_ret d c WD FB) as (b & R & _ & _ & HB). split; [exists b; exact (conj R HB)|exact (just_call d c WD FB)].
Qed.
(** The preview is the first instruction in the listing of the pending prefix, if any, and the memory from PC on, four bytes altogether; or
    these bytes if there is none. *)
Theorem C63_preview : forall Q T D (FL : Flavour Q) (ch : chip T) absq, models FL ch absq ->
  forall fuel q0 (w : world Q D) mm dd d, wf (w_cpu w) -> w_bus w = Some (mm, dd) -> (10 <= fuel)%nat -> debug_preview FL fuel q0 w = Done d ->
  let px := pbyte (prefix (w_cpu w)) in let k := List.length px in
  exists m rs, List.length m = 4%nat /\ firstn k m = px /\
    (forall i, (k <= i < 4)%nat -> exists v, m_read_debug mm ((pc (w_cpu w) + Z.of_nat (i - k)) mod 65536) = Some v /\ nth_error m i = Some (v mod 256)) /\
    listing ((pc (w_cpu w) - Z.of_nat k) mod 65536) m rs /\
    d = match rs with d' :: _ => d' | [] => mkDebug m "" ((pc (w_cpu w) - Z.of_nat k) mod 65536) (prefix (w_cpu w)) ANone end.
Proof. intros Q T D FL ch absq M. exact (preview_spec FL ch absq (models_ok _ _ _ M)). Qed.
(** It is there if the memory can be read. *)
Theorem C63_preview_runs : forall Q T D (FL : Flavour Q) (ch : chip T) absq, models FL ch absq ->
  forall fuel q0 (w : world Q D) mm dd, wf (w_cpu w) -> w_bus w = Some (mm, dd) -> (10 <= fuel)%nat -> (forall a, 0 <= a < 65536 -> m_read_debug mm a <> None) ->
  exists d, debug_preview FL fuel q0 w = Done d.
Proof. intros Q T D FL ch absq M. exact (preview_done FL ch absq (models_ok _ _ _ M)). Qed.

(** ** A machine with a device that asks for one interrupt *)
Definition caller (v : Z) : dev bool :=
  mkDev (fun _ d => Some d) (fun _ d => Some d) (fun _ d => Some d) (fun _ d => Some d)
    (fun _ _ d => Some (d, (255, None))) (fun _ _ _ d => Some (d, (None, None))) (fun _ d => Some (d, d)) (fun _ _ d => Some (false, (v, None))) (fun _ _ d => Some (d, None)).
Definition at_4000 (l : list Z) (l5 : list Z) : option ralmem :=
  match mem_new [0] 48 with
  | Some m => option_map fst (mem_run (map (fun x => MWrite (0x4000 + Z.of_nat (fst x)) (snd x)) (combine (seq 0 (List.length l)) l) ++
      map (fun x => MWrite (0x5000 + Z.of_nat (fst x)) (snd x)) (combine (seq 0 (List.length l5)) l5)) m)
  | None => None
  end.
(** [frame] T-states to the end of the frame, the clock at 1000. *)
Definition machine (frame : Z) (irq : bool) (c : cpu qstate) (l l5 : list Z) : world qstate bool :=
  mkWorld (mkRunner (mkTClock 1000 1000) 1000 frame) c (option_map (fun m => (m, irq)) (at_4000 l l5)).
Notation step v := (debug_step NMOS 255 124 (caller v) 2).
Definition summary_of (x : outcome (world qstate bool * (option CpuDebug * Z))) :=
  match x with Done (w, (Some d, t)) => Some (dcode d, dmnemonic d, dpc d, pc (w_cpu w), t) | _ => None end.
Definition then_ {A} (x : outcome (world qstate bool * A)) (f : world qstate bool -> outcome (world qstate bool * (option CpuDebug * Z))) :=
  match x with Done (w, _) => f w | _ => Panicked end.
Definition im2_4000 : cpu qstate := set_iffs true true (set_im Mode2 (set_i 0x50 (set_sp 0x8000 (nm 0x4000)))).
(** DD, LD IX,1234h: the first prefix, and the instruction; an interrupt in mode 2 with its vector at 5004h. *)
Example C63_ex_step : let w := machine 100 false (nm 0x4000) [0xDD; 0xDD; 0x21; 0x34; 0x12] [] in
  summary_of (step 4 w) = Some ([0xDD], "NOP*"%string, 0x4000, 0x4002, 8) /\
  summary_of (then_ (step 4 w) (step 4)) = Some ([0xDD; 0x21; 0x34; 0x12], "LD"%string, 0x4001, 0x4005, 10) /\
  summary_of (step 4 (machine 100 true im2_4000 [0] [0; 0; 0; 0; 0x34; 0x12])) = Some ([0x34; 0x12], "IRQ#"%string, 0x4000, 0x1234, 19) /\
  match step 4 (machine 100 true im2_4000 [0] [0; 0; 0; 0; 0x34; 0x12]) with Done (_, (Some d, _)) => dargs d = ASingle (DImm16 0x5004) | _ => False end /\
  wf (w_cpu w) /\ fits w.
Proof. vm_compute. repeat split; discriminate. Qed.
(** XOR A; RET NZ; RET. *)
Example C63_ex_ret : summary_of (debug_runto_ret NMOS 255 124 (caller 4) 9 (machine 100 false (set_sp 0x5000 (nm 0x4000)) [0xAF; 0xC0; 0xC9] [0x21; 0x43])) =
  Some ([0xC9], "RET"%string, 0x4002, 0x4321, 19).
Proof. vm_compute. reflexivity. Qed.
(** EI; NOP; the interrupt. *)
Example C63_ex_int : summary_of (debug_runto_int NMOS 255 124 (caller 4) 9 (machine 100 true (set_iffs false false im2_4000) [0xFB; 0; 0] [0; 0; 0; 0; 0x34; 0x12])) =
  Some ([0x34; 0x12], "IRQ#"%string, 0x4002, 0x1234, 27).
Proof. vm_compute. reflexivity. Qed.
(** JP 4100h with breakpoints at 4050h and 4100h. *)
Fixpoint look (l : list Z) (p : Z) (i : nat) : nat + nat :=
  match l with [] => inr i | x :: l => if x =? p then inl i else if p <? x then inr i else look l p (S i) end.
Definition linear (l : list Z) (p : Z) : nat + nat := look l p 0.
Example C63_ex_search : searches linear [0x4050; 0x4100] /\ ascending [0x4050; 0x4100].
Proof.
  split.
  - intros p. cbv beta iota delta [linear look]. destruct (Z.eqb_spec 0x4050 p) as [<-|N1]; [reflexivity|]. destruct (Z.ltb_spec p 0x4050); [|destruct (Z.eqb_spec 0x4100 p) as [<-|N2]; [reflexivity|destruct (Z.ltb_spec p 0x4100)]].
    all: split; intros j x Hj E; destruct j as [|[|[|j]]]; cbn in E; try discriminate E; injection E as <-; lia.
  - intros [|[|[|i]]] [|[|[|j]]] x y L E1 E2; cbn in E1, E2; try discriminate; injection E1 as <-; injection E2 as <-; lia.
Qed.
Definition stops (frame : Z) :=
  match run_until_brkpt NMOS 255 124 (caller 4) linear 9 [0x4050; 0x4100] (machine frame false (nm 0x4000) [0; 0xC3; 0x00; 0x41] []) with
  | Done (w, (r, t)) => Some (r, pc (w_cpu w), t) | _ => None end.
Example C63_ex_brkpt : stops 100 = Some (Some 1%nat, 0x4100, 14) /\ stops 4 = Some (None, 0x4001, 4).
Proof. vm_compute. auto. Qed.
Definition set_w_cpu (c : cpu qstate) (w : world qstate bool) : world qstate bool := mkWorld (w_run w) c (w_bus w).
Example C63_ex_preview :
  match debug_preview NMOS 10 q_default (set_w_cpu (set_prefix (Some Xdd) (nm 0x4001)) (machine 100 false (nm 0x4000) [0xDD; 0x21; 0x34; 0x12] [])) with
  | Done d => (dcode d, dmnemonic d, dpc d) = ([0xDD; 0x21; 0x34; 0x12], "LD"%string, 0x4000) | _ => False end.
Proof. vm_compute. reflexivity. Qed.

(** NOP; NOP in a frame of 8 T-states, after a second is taken off the clock. *)
Definition second_spare : world qstate bool := mkWorld (mkRunner (mkTClock 3000 1000) 3000 8) (nm 0x4000) (w_bus (machine 8 false (nm 0x4000) [0; 0] [])).
Example C63_ex_runs : exists w0 tr w', wf (w_cpu second_spare) /\ fits second_spare /\ second_over (caller 4) second_spare w0 /\ roomy second_spare w0 /\
  clk w0 = 2000 /\ rn_limit (w_run w0) + rn_frame (w_run w0) = 2008 /\ ticks NMOS 255 124 (caller 4) 2008 w0 tr w' /\ tr <> [] /\ 2008 <= clk w' /\ pc (w_cpu w') = 0x4002.
Proof.
  assert (X : exists w' t, debug_runto_ret NMOS 255 124 (caller 4) 9 second_spare = Done (w', (None, t)) /\ pc (w_cpu w') = 0x4002) by (eexists _, _; split; vm_compute; reflexivity).
  destruct X as (w' & t & E & P). assert (W : wf (w_cpu second_spare)) by (vm_compute; repeat split; discriminate).
  assert (F : fits second_spare) by (vm_compute; repeat split; discriminate).
  destruct (C63_ret _ _ _ _ _ _ _ _ _ _ _ W F E) as (w0 & lim & tr & w1 & l & SO & EL & TS & _ & _ & LE & _). exists w0, (tr ++ [(w1, l, w')]), w'.
  assert (C0 : clk w0 = 2000 /\ rn_limit (w_run w0) + rn_frame (w_run w0) = 2008) by (rewrite SO; split; reflexivity). destruct C0 as [C0 C1]. rewrite C1 in EL. subst lim.
  split; [exact W|]. split; [exact F|]. split; [exact SO|]. split; [|split; [exact C0|split; [exact C1|split; [exact TS|split; [|split; [exact LE|exact P]]]]]].
  - split; [reflexivity|]. split; [discriminate|]. rewrite SO. vm_compute. discriminate.
  - intros X. now destruct tr.
Qed.

(** ** What is not so *)
(** The address shown with a prefix that is followed by another one is not always its own: after three prefixes, the second one is shown at
    the address of the third. *)
Theorem C63_prefix_address_refuted : exists (w w' : world qstate bool) d t m i, step 4 w = Done (w', (Some d, t)) /\ wf (w_cpu w) /\ w_bus w = Some (m, i) /\
  prefix (w_cpu w) = Some Yfd /\ dcode d = [0xFD] /\ m_read_debug m (dpc d) = Some 0xDD.
Proof.
  exists (machine 100 false (set_prefix (Some Yfd) (nm 0x4002)) [0xDD; 0xFD; 0xDD; 0x21] []).
  eexists _, _, _, _, _. split; [vm_compute; reflexivity|]. split; [vm_compute; repeat split; discriminate|]. split; [reflexivity|]. repeat split; vm_compute; reflexivity.
Qed.
(** An interrupt in mode 2 may be taken for a return, by the low byte of the address of its routine; or for neither a return nor a call. *)
Theorem C63_irq_kind_refuted : exists (w1 w2 w1' w2' : world qstate bool) d1 d2 t1 t2, step 4 w1 = Done (w1', (Some d1, t1)) /\ step 4 w2 = Done (w2', (Some d2, t2)) /\
  wf (w_cpu w1) /\ wf (w_cpu w2) /\ dmnemonic d1 = "IRQ#"%string /\ was_just_a_ret d1 (w_cpu w1') = Some true /\ dmnemonic d2 = "IRQ#"%string /\
  was_just_a_ret d2 (w_cpu w2') = Some false /\ was_just_a_call d2 (w_cpu w2') = Some false.
Proof.
  exists (machine 100 true im2_4000 [0] [0; 0; 0; 0; 0xC9; 0x12]), (machine 100 true im2_4000 [0] [0; 0; 0; 0; 0x00; 0x12]).
  eexists _, _, _, _, _, _. split; [vm_compute; reflexivity|]. split; [vm_compute; reflexivity|]. split; [vm_compute; repeat split; discriminate|].
  split; [vm_compute; repeat split; discriminate|]. repeat split; vm_compute; reflexivity.
Qed.
(** A device that makes the CPU execute IM 2 in mode 0: shown as an interrupt in mode 2, without its first byte. *)
Theorem C63_mode0_refuted : exists (w w' : world qstate bool) d t, step 0xED w = Done (w', (Some d, t)) /\ wf (w_cpu w) /\ im (w_cpu w) = Mode0 /\
  dmnemonic d = "IRQ#"%string /\ dcode d = [0x5E].
Proof.
  exists (machine 100 true (set_im Mode0 im2_4000) [0x5E] []). eexists _, _, _. split; [vm_compute; reflexivity|]. split; [vm_compute; repeat split; discriminate|].
  repeat split; vm_compute; reflexivity.
Qed.
(** "No breakpoint" may be the answer with the program at one: it jumped over the next one to another one when the frame ended. *)
Theorem C63_brkpt_missed_refuted : exists (w w' : world qstate bool) brkpts t, searches linear brkpts /\ ascending brkpts /\ wf (w_cpu w) /\
  run_until_brkpt NMOS 255 124 (caller 4) linear 9 brkpts w = Done (w', (None, t)) /\ In (pc (w_cpu w')) brkpts.
Proof.
  exists (machine 14 false (nm 0x4000) [0; 0xC3; 0x00; 0x41] []). eexists _, [0x4050; 0x4100], _. split; [apply C63_ex_search|]. split; [apply C63_ex_search|].
  split; [vm_compute; repeat split; discriminate|]. split; [vm_compute; reflexivity|]. vm_compute. auto.
Qed.
Definition C63_all := (@C63_step, @C63_step_ends, @C63_step_runs, @C63_runs, @C63_int, @C63_ret, @C63_brkpt, @C63_kinds, @C63_preview, @C63_preview_runs, @C63_prefix_address_refuted, @C63_irq_kind_refuted, @C63_mode0_refuted,
  @C63_brkpt_missed_refuted).
Print Assumptions C63_all.
