(** Property C66: the example computer's thread. *)
From Coq Require Import ZArith Bool String List Lia.
From Verif Require Import Base Parse Cpu Flavours Prog Trace Exec Demo RalMemory RalBus RalRunner RalDebug SpecIsa IsaRun SpecRal SpecRunner RalRunnerProofs PropRal
  SpecDebug SpecRalDebug PropRalDebug RalThread RalLoopRuns RalLoop SpecRalLoop RalLoopProofs.
Import ListNotations.
Open Scope list_scope.
Open Scope Z_scope.

(** A request for an NMI is not lost: each turn begins with another try until it is accepted or the computer is reset.  No NMI is tried that
    nobody asked for, and no more are accepted than were asked for. *)
Theorem C66_requests : forall Q D (FL : Flavour Q) da mask bits (dv : dev D) search n hz q0 w dbg ps t' l,
  thread_run FL da mask bits dv search n hz q0 (mkThread w false dbg) ps = Done (t', l) -> kept l /\ asked l /\ (count is_accept l <= count is_ask l)%nat.
Proof. intros Q D. exact (@requests Q D). Qed.
(** Left alone, the thread runs the machine of C53 frame after frame. *)
Theorem C66_left_alone : forall Q D (FL : Flavour Q) da mask bits (dv : dev D) search n hz q0 ps w, Forall idle ps ->
  match runner_steps FL da mask bits dv (List.length ps) n w with
  | Done (w', ts) => exists l, thread_run FL da mask bits dv search n hz q0 (mkThread w false false) ps = Done (Some (mkThread w' false false), l) /\ frames_of l = ts
  | Panicked => thread_run FL da mask bits dv search n hz q0 (mkThread w false false) ps = Panicked
  | More => thread_run FL da mask bits dv search n hz q0 (mkThread w false false) ps = More
  end.
Proof. intros Q D. exact (@left_alone Q D). Qed.
(** A pause in debug mode is not seen by the machine: it goes on where it was stopped. *)
Theorem C66_paused : forall Q D (FL : Flavour Q) da mask bits (dv : dev D) search n hz q0 a o b c w t' l, Forall idle a -> enters o -> Forall quiet b -> Forall idle c ->
  thread_run FL da mask bits dv search n hz q0 (mkThread w false false) (a ++ [PMsg o] ++ b ++ [PMsg MContinue] ++ c) = Done (Some t', l) ->
  exists w', runner_steps FL da mask bits dv (List.length a + (1 + List.length c)) n w = Done (w', frames_of l) /\ t' = mkThread w' false false.
Proof. intros Q D. exact (@paused Q D). Qed.
(** [Terminate], or nobody there to send, ends it in either mode, and nothing else does; what would come later is not looked at. *)
Theorem C66_ended : forall Q D (FL : Flavour Q) da mask bits (dv : dev D) search n hz q0 ps t t' l, thread_run FL da mask bits dv search n hz q0 t ps = Done (t', l) ->
  (t' = None <-> Exists stops ps) /\
  (forall a p b, ps = a ++ p :: b -> stops p -> forall c, thread_run FL da mask bits dv search n hz q0 t (a ++ p :: c) = Done (None, l)).
Proof. intros Q D. exact (@ended Q D). Qed.
(** Everything that happens: what each message comes to in either mode, and that the computer is changed by what happens and by nothing else. *)
Theorem C66_account : forall Q D (FL : Flavour Q) da mask bits (dv : dev D) search n hz q0 ps w req dbg t' l,
  thread_run FL da mask bits dv search n hz q0 (mkThread w req dbg) ps = Done (t', l) ->
  kinds l = (if dbg then debugging else running) ps /\ exists w', history FL da mask bits dv search n hz l w w' /\ forall x, t' = Some x -> th_world x = w'.
Proof. intros Q D. exact (@account Q D). Qed.
(** Nothing stops the thread while it is not in debug mode: under the conditions of C53_runs, with frames of 11 T-states or more and devices
    that do not mind the time an NMI takes, any sequence of the other messages is worked off without a panic. *)
Theorem C66_runs : forall Q T D (FL : Flavour Q) (ch : chip T) absq, models FL ch absq ->
  forall (dv : dev D) ext fhz hz r, waitless dv -> 0 <= fhz -> runner_new ext fhz hz = Some r -> 33 <= hz -> 11 <= hz / fhz ->
  forall ok top c rom kb m0 ops m a d da fuel, polite dv ok hz top -> patient ok top -> top <= 2 ^ 32 -> 2 * hz + hz / fhz + 33 < top ->
  0 <= kb -> mem_new rom kb = Some m0 -> all_allowed [] ops -> mem_run ops m0 = Some (m, a) -> ok 0 d -> hz / fhz + 22 <= 4 * (Z.of_nat fuel - 1) ->
  exists w, runner_start FL dv (mkWorld r c (Some (m, d))) = Done w /\
  forall search sec q0 ps, Forall plain ps -> exists x, thread_run FL da 255 124 dv search fuel sec q0 (mkThread w false false) ps = Done x.
Proof. intros Q T D FL ch absq M. exact (runs_on FL ch absq (models_ok _ _ _ M)). Qed.

Definition go (frame : Z) (l : list Z) (ps : list poll) :=
  match thread_run NMOS true 255 124 (caller 4) linear 9 5 q_default (mkThread (machine frame false (set_sp 0x8000 (nm 0x4000)) l []) false false) ps with
  | Done (t, l) => Some (option_map (fun t => (pc (w_cpu (th_world t)), th_nmi t, th_debug t)) t, l)
  | _ => None
  end.
(** Prefixes without end in frames of 8 T-states: an NMI is refused four times and accepted at last. *)
Example C66_ex_requests : go 8 [0xDD; 0xDD; 0xDD; 0xDD; 0xDD; 0xDD; 0xDD; 0; 0] [PMsg MNmi; PEmpty; PEmpty; PEmpty; PEmpty] =
  Some (Some (0x66, false, false), [ETurn; EFrame 8; EAsk; ETry false; ETurn; ETry false; EFrame 8; ETurn; ETry false; EFrame 8; ETurn; ETry false; EFrame 8; ETurn; ETry true; EFrame 0]).
Proof. vm_compute. reflexivity. Qed.
(** Into debug mode with a request, another one there, one instruction, a reset, on with it, the end. *)
Example C66_ex_ended : match go 8 [0xDD; 0xDD; 0xDD; 0xDD; 0xDD; 0xDD; 0xDD; 0; 0]
    [PMsg MNmi; PMsg MDebugNext; PEmpty; PMsg MNmi; PMsg MDebugNext; PMsg MReset; PMsg MContinue; PMsg MTerminate; PEmpty] with
  | Some (t, [ETurn; EFrame 8; EAsk; ETry false; ETurn; ETry false; EFrame 8; EDebug; ETurn; ETry false; EAsk; ETurn; ETry false; EOrder MDebugNext (Some d) 4;
      ETurn; ETry false; EReset; ETurn; ELeave; ETurn; EFrame 4; EEnd]) => t = None /\ dmnemonic d = "NOP*"%string /\ dpc d = 0x4004
  | _ => False
  end.
Proof. vm_compute. repeat split; reflexivity. Qed.
(** Four frames of two NOPs, and three with a pause. *)
Example C66_ex_left_alone : go 8 [0; 0; 0; 0; 0; 0; 0; 0] [PEmpty; PMsg MContinue; PEmpty; PEmpty] =
  Some (Some (0x4008, false, false), [ETurn; EFrame 8; ETurn; EFrame 8; ETurn; EFrame 8; ETurn; EFrame 8]).
Proof. vm_compute. reflexivity. Qed.
Example C66_ex_paused : go 8 [0; 0; 0; 0; 0; 0] [PEmpty; PMsg MDebugRunIrq; PEmpty; PEmpty; PMsg MContinue; PEmpty] =
  Some (Some (0x4006, false, false), [ETurn; EFrame 8; ETurn; EFrame 8; EDebug; ETurn; ELeave; ETurn; EFrame 8]).
Proof. vm_compute. reflexivity. Qed.
(** Two orders of the debugger: NOP, and on over another one to RET at 4004h. *)
Example C66_ex_account : match go 8 [0; 0; 0; 0; 0xC9; 0] [PMsg MDebugNext; PMsg MDebugNext; PEmpty; PMsg MDebugCompletion] with
  | Some (Some (p, _, true), [ETurn; EFrame 8; EDebug; ETurn; EOrder MDebugNext (Some d) 4; ETurn; EOrder MDebugCompletion (Some e) 14]) =>
      (dpc d, dpc e, dmnemonic e, p) = (0x4002, 0x4004, "RET"%string, 0)
  | _ => False
  end.
Proof. vm_compute. reflexivity. Qed.
(** The machine of C53_ex in six frames, with both buttons; its devices are such. *)
Definition buttons (ps : list poll) :=
  match runner_new 5 10 1030, ral_ready with
  | Some r, Some m =>
      match runner_start NMOS terminator (mkWorld r (nm 0) (Some (m, tt))) with
      | Done w => match thread_run NMOS true 255 124 terminator linear 32 5 q_default (mkThread w false false) ps with Done (Some t, l) => Some (tc_cur (rn_clock (w_run (th_world t))), l) | _ => None end
      | _ => None
      end
  | _, _ => None
  end.
Example C66_ex_runs : patient (fun _ (_ : unit) => True) (2 ^ 32) /\ Forall plain [PEmpty; PMsg MNmi; PMsg MReset; PMsg MNmi; PMsg MNmi; PMsg MContinue] /\
  match buttons [PEmpty; PMsg MNmi; PMsg MReset; PMsg MNmi; PMsg MNmi; PMsg MContinue] with
  | Some (t, l) => (1648 <= t <= 1670 /\ count is_accept l = 3%nat /\ count is_ask l = 3%nat)
  | None => False
  end.
Proof.
  split; [intros ? ? ? _ _ _; exact I|]. split; [repeat constructor; intros [X|[X|X]]; discriminate X|]. vm_compute. repeat split; discriminate.
Qed.
(** ** What is not so *)
(** In debug mode an NMI takes its time, but that is not part of any frame.  After two seconds' worth of them, here 200, the clock is set back
    a second in two frames in a row, and the limit of the frame with it (runner.rs:105-107), which overflows in the second: a computer that
    runs, to which nothing is sent, panics.  The machine is that of C66_ex_runs. *)
Definition flood : list poll := PMsg MDebugNext :: repeat (PMsg MNmi) 200 ++ [PMsg MContinue; PEmpty].
Definition thread0 (w : world qstate unit) := thread_run NMOS true 255 124 terminator linear 32 5 q_default (mkThread w false false).
Theorem C66_all_messages_refuted : exists r m w t l, runner_new 5 10 1030 = Some r /\ ral_ready = Some m /\ runner_start NMOS terminator (mkWorld r (nm 0) (Some (m, tt))) = Done w /\
  thread0 w flood = Done (Some t, l) /\ th_debug t = false /\ th_nmi t = false /\ w_run (th_world t) = mkRunner (mkTClock 2304 1030) 206 103 /\ thread0 w (flood ++ [PEmpty]) = Panicked.
Proof.
  assert (X : match runner_new 5 10 1030, ral_ready with
    | Some r, Some m => match runner_start NMOS terminator (mkWorld r (nm 0) (Some (m, tt))) with
        | Done w => match thread0 w flood, thread0 w (flood ++ [PEmpty]) with
            | Done (Some t, _), Panicked => th_debug t = false /\ th_nmi t = false /\ w_run (th_world t) = mkRunner (mkTClock 2304 1030) 206 103
            | _, _ => False
            end
        | _ => False
        end
    | _, _ => False
    end) by (vm_compute; repeat split; reflexivity).
  destruct (runner_new 5 10 1030) as [r|]; [|destruct X]. destruct ral_ready as [m|]; [|destruct X].
  destruct (runner_start NMOS terminator (mkWorld r (nm 0) (Some (m, tt)))) as [| |w] eqn:E; [destruct X..|].
  destruct (thread0 w flood) as [| |[[t|] l]] eqn:E1; [destruct X..| |destruct X]. destruct (thread0 w (flood ++ [PEmpty])) eqn:E2; [|destruct X..].
  destruct X as (X1 & X2 & X3). exists r, m, w, t, l. auto 10.
Qed.
Definition C66_all := (@C66_all_messages_refuted, @C66_runs, @C66_requests, @C66_account, @C66_left_alone, @C66_paused, @C66_ended).
Print Assumptions C66_all.
