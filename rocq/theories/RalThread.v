(** The debugger's orders of the example computer (examples/ral1243/src/thread.rs): frame after frame, and "run to completion".

    The threads, channels, texts and the pace in real time of thread.rs are not modelled. *)
From Coq Require Import ZArith Bool List.
From Verif Require Import Base Parse Cpu Prog RalMemory RalBus RalRunner RalDebug.
Import ListNotations.
Open Scope Z_scope.

(** thread.rs:220-240; [debug] runs on the machine [W]. *)
Fixpoint run_for {W D} (debug : W -> outcome (W * (option D * Z))) (start : Z) (frames : nat) (w : W) : outcome (W * (option D * Z)) :=
  oseq (debug w) (fun x => let '(w, (d, ts)) := x in
  checked (add32 start ts) (fun s =>
  match d, frames with
  | Some deb, _ => Done (w, (Some deb, s))
  | None, O => Done (w, (None, s))
  | None, S frames => run_for debug s frames w
  end)).
Section Thread.
Context {Q D : Type}.
Variables (FL : Flavour Q) (mask bits : Z) (dv : dev D).
Notation world := (world Q D).
Variable search : list Z -> Z -> nat + nat.
(** thread.rs:140-157, with [n] turns for each loop of the debugger and [hz] frames per second. *)
Definition run_to_completion (n hz : nat) (w : world) : outcome (world * (option CpuDebug * Z)) :=
  oseq (debug_step FL mask bits dv n w) (fun x => let '(w, (dbg, ts)) := x in
  let to_ret := run_for (debug_runto_ret FL mask bits dv n) ts hz w in
  match dbg with
  | None => to_ret
  | Some deb =>
      checked (was_just_a_ret deb (w_cpu w)) (fun r => if r then Done (w, (dbg, ts)) else
      checked (was_just_a_call deb (w_cpu w)) (fun c => if c then
        oseq (run_for (run_until_brkpt FL mask bits dv search n [u16 (dpc deb + Z.of_nat (List.length (dcode deb)))]) ts hz w)
          (fun y => Done (fst y, (None, snd (snd y))))
      else to_ret))
  end).
End Thread.
