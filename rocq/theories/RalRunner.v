(** The frame runner of the example computer RAL 1243 (examples/ral1243/src/runner.rs).

    [Panicked] is a panic: of a device, of the memory, of arithmetic on timestamps with overflow checks, of a debug assertion of the
    crate, or the one of runner.rs:118.  Loops take fuel: [More] if there was not enough. *)
From Coq Require Import ZArith Bool List.
From Verif Require Import Base Cpu Prog Exec RalMemory RalBus.
Import ListNotations.
Open Scope Z_scope.

Inductive outcome (A : Type) := Panicked | More | Done (x : A).
Arguments Panicked {A}. Arguments More {A}. Arguments Done {A}.
Definition checked {A B} (x : option A) (f : A -> outcome B) : outcome B := match x with None => Panicked | Some x => f x end.

(* runner.rs:35-39 *)
Record runner := mkRunner { rn_clock : tclock; rn_limit : Z; rn_frame : Z }.
(* runner.rs:55-57; the products may overflow, the remainder needs a divisor *)
Definition clock_is_valid (ext hz : Z) : option bool :=
  match mul32 ext 2 with
  | None => None
  | Some e2 => if e2 =? 0 then None else if negb (hz mod e2 =? 0) then Some false else option_map (fun e10 => e10 <=? hz) (mul32 ext 10)
  end.
(* runner.rs:62-64 *)
Definition external_clock_tstates (ext : Z) (r : runner) : option Z := if ext =? 0 then None else Some (tc_hz (rn_clock r) / ext).
(* runner.rs:72-80 *)
Definition runner_new (ext frame_hz hz : Z) : option runner :=
  match clock_is_valid ext hz with
  | Some true => if frame_hz =? 0 then None else Some (mkRunner (tclock_new hz) 0 (hz / frame_hz))
  | _ => None
  end.

Section Runner.
Context {Q D : Type}.
Variables (FL : Flavour Q) (da : bool) (mask bits : Z) (dv : dev D).
(** The runner with the CPU and the bus it is given. *)
Record world := mkWorld { w_run : runner; w_cpu : cpu Q; w_bus : bus D }.
Definition with_bus {A} (b : bus D) (f : bus D -> outcome A) : outcome A := match b with None => Panicked | Some _ => f b end.
(* runner.rs:90-97 *)
Definition runner_start (w : world) : outcome world :=
  let r := w_run w in let c := tclock_reset (rn_clock r) in
  with_bus (bus_reset dv (tc_cur c) (w_bus w)) (fun b => Done (mkWorld (mkRunner c (tc_cur c) (rn_frame r)) (reset FL (w_cpu w)) b)).
(** The loop at runner.rs:115-125, at most [n] times. *)
Fixpoint frame_loop (n fuel : nat) (limit : Z) (c : cpu Q) (b : bus D) (k : tclock) : outcome (cpu Q * bus D * tclock) :=
  match n with
  | O => More
  | S n =>
      match run (ral_host mask bits dv limit) (execute_with_limit FL da fuel c) b k with
      | None => Panicked
      | Some (None, _, _, _) => More
      | Some (Some (c, r), b, k, _) =>
          with_bus b (fun b =>
            match r with
            | None => Done (c, b, k)
            | Some BHalt => frame_loop n fuel limit c b k
            | Some _ => Panicked
            end)
      end
  end.
(* runner.rs:101-129 *)
Definition runner_step (fuel : nat) (w : world) : outcome (world * Z) :=
  let r := w_run w in
  checked (check_wrap_second (rn_clock r)) (fun cw =>
  let (k, wrapped) := cw in
  checked (if wrapped then sub32 (rn_limit r) (tc_hz k) else Some (rn_limit r)) (fun limit =>
  with_bus (if wrapped then bus_next_second dv (tc_hz k) (w_bus w) else w_bus w) (fun b =>
  let start := tc_cur k in
  checked (add32 limit (rn_frame r)) (fun limit =>
  match frame_loop fuel fuel limit (w_cpu w) b k with
  | Panicked => Panicked
  | More => More
  | Done (c, b, k) =>
      with_bus (bus_frame_end dv (tc_cur k) b) (fun b =>
        Done (mkWorld (mkRunner k limit (rn_frame r)) c b, u32 (tc_cur k - start)))
  end)))).
(* runner.rs:132-137 *)
Definition runner_reset (w : world) : outcome world :=
  with_bus (bus_reset dv (tc_cur (rn_clock (w_run w))) (w_bus w)) (fun b => Done (mkWorld (w_run w) (reset FL (w_cpu w)) b)).
(* runner.rs:141-149 *)
Definition runner_nmi (w : world) : outcome (world * option Z) :=
  let r := w_run w in
  match run (ral_host mask bits dv 0) (nmi FL (w_cpu w)) (w_bus w) (rn_clock r) with
  | None => Panicked
  | Some ((c, ok), b, k, _) =>
      with_bus b (fun b => Done (mkWorld (mkRunner k (rn_limit r) (rn_frame r)) c b,
        if ok then Some (u32 (tc_cur k - tc_cur (rn_clock r))) else None))
  end.
(** [n] steps; the returned durations. *)
Fixpoint runner_steps (n fuel : nat) (w : world) : outcome (world * list Z) :=
  match n with
  | O => Done (w, [])
  | S n => match runner_steps n fuel w with
      | Done (w, l) => match runner_step fuel w with Done (w, d) => Done (w, l ++ [d]) | Panicked => Panicked | More => More end
      | x => x
      end
  end.
End Runner.
Arguments world : clear implicits.
