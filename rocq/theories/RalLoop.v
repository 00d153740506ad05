(** The thread that runs the example computer (examples/ral1243/src/thread.rs:76-138 [run], 159-215 [debug]): its messages, frames and orders.

    The messages are a list of what each look into the channel finds.  Texts, sleeping, the measuring of time and the sums kept for
    the texts ([total_ts], [last_ts]) are not modelled.  In debug mode
    [recv] waits: an empty channel there is passed over. *)
From Coq Require Import ZArith Bool List.
From Verif Require Import Base Parse Cpu Prog RalMemory RalBus RalRunner RalDebug RalThread.
Import ListNotations.
Open Scope list_scope.
Open Scope Z_scope.

(* thread.rs:18-33 *)
Inductive msg := MTerminate | MReset | MNmi | MDebugNext | MDebugCompletion | MDebugRunIrq | MContinue.
(** A message, none at the moment, or nobody there to send one. *)
Inductive poll := PMsg (m : msg) | PEmpty | PClosed.
(** What happens: a turn of either loop begins, an NMI is tried, a frame was run, a message asks for an NMI, a reset, an order of the debugger
    was carried out, debug mode is entered or left, the thread ends. *)
Inductive event := ETurn | ETry (ok : bool) | EFrame (ts : Z) | EAsk | EReset | EOrder (m : msg) (d : option CpuDebug) (ts : Z) | EDebug | ELeave | EEnd.

Section Loop.
Context {Q D : Type}.
Variables (FL : Flavour Q) (da : bool) (mask bits : Z) (dv : dev D).
Notation world := (world Q D).
Variable search : list Z -> Z -> nat + nat.
(** Turns of the loops inside, frames per second, and what [Default] gives for the disassembler. *)
Variables (n hz : nat) (q0 : Q).
(** The computer, [nmi_request], and whether it is in debug mode. *)
Record thread := mkThread { th_world : world; th_nmi : bool; th_debug : bool }.
(* thread.rs:88-90, 177-182 *)
Definition pending_nmi (w : world) (req : bool) : outcome (world * bool * list event) :=
  if req then oseq (runner_nmi FL mask bits dv w) (fun x => Done (fst x, match snd x with Some _ => false | None => true end, [ETry (match snd x with Some _ => true | None => false end)]))
  else Done (w, false, []).
(** thread.rs:88-123; no thread is left when it ends *)
Definition run_turn (w : world) (req : bool) (p : poll) : outcome (option thread * list event) :=
  oseq (pending_nmi w req) (fun x => let '(w, req, l) := x in
  oseq (runner_step FL da mask bits dv n w) (fun y => let (w, ts) := y in
  let l := ETurn :: l ++ [EFrame ts] in
  match p with
  | PMsg MTerminate | PClosed => Done (None, l ++ [EEnd])
  | PMsg MReset => oseq (runner_reset FL dv w) (fun w => Done (Some (mkThread w false false), l ++ [EReset]))
  | PMsg MNmi => oseq (runner_nmi FL mask bits dv w) (fun x =>
      let ok := match snd x with Some _ => true | None => false end in Done (Some (mkThread (fst x) (negb ok) false), l ++ [EAsk; ETry ok]))
  | PMsg MDebugNext | PMsg MDebugRunIrq | PMsg MDebugCompletion => Done (Some (mkThread w req true), l ++ [EDebug])
  | PMsg MContinue | PEmpty => Done (Some (mkThread w req false), l)
  end)).
(* thread.rs:204-206 *)
Definition order (m : msg) (w : world) : outcome (world * (option CpuDebug * Z)) :=
  match m with
  | MDebugCompletion => run_to_completion FL mask bits dv search n hz w
  | MDebugRunIrq => run_for (debug_runto_int FL mask bits dv n) 0 hz w
  | _ => debug_step FL mask bits dv n w
  end.
(* thread.rs:176-214 *)
Definition debug_turn (w : world) (req : bool) (m : option msg) : outcome (option thread * list event) :=
  oseq (pending_nmi w req) (fun x => let '(w, req, l) := x in
  oseq (debug_preview FL n q0 w) (fun _ =>
  let l := ETurn :: l in
  match m with
  | Some MContinue => Done (Some (mkThread w req false), l ++ [ELeave])
  | Some MTerminate | None => Done (None, l ++ [EEnd])
  | Some MReset => oseq (runner_reset FL dv w) (fun w => Done (Some (mkThread w false true), l ++ [EReset]))
  | Some MNmi => Done (Some (mkThread w true true), l ++ [EAsk])
  | Some m => oseq (order m w) (fun x => Done (Some (mkThread (fst x) req true), l ++ [EOrder m (fst (snd x)) (snd (snd x))]))
  end)).
Definition turn (t : thread) (p : poll) : outcome (option thread * list event) :=
  if th_debug t then
    match p with PEmpty => Done (Some t, []) | PMsg m => debug_turn (th_world t) (th_nmi t) (Some m) | PClosed => debug_turn (th_world t) (th_nmi t) None end
  else run_turn (th_world t) (th_nmi t) p.
Fixpoint thread_run (t : thread) (ps : list poll) : outcome (option thread * list event) :=
  match ps with
  | [] => Done (Some t, [])
  | p :: ps => oseq (turn t p) (fun x =>
      match fst x with None => Done x | Some t => oseq (thread_run t ps) (fun y => Done (fst y, snd x ++ snd y)) end)
  end.
End Loop.
Arguments thread : clear implicits.
