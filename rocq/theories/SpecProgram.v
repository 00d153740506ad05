(** Programs running on the CPU (C50): the loops of the crate's shuffle test (tests/shuffle_test.rs), and what is asked of a
    computer they run on. *)
From Coq Require Import ZArith Bool List Permutation Sorted.
From Verif Require Import Base Parse Cpu Flavours Prog Trace Exec Clock SpecIsa SpecCycles IsaLink IsaRun Shuffle.
Import ListNotations.
Open Scope Z_scope.

(** Memory is RAM of 64 kB, nothing interrupts, devices ask for no wait states. *)
Record computer {TS WB RB BS CK} (Hs : host TS WB RB BS CK) (mo : BS -> mem) : Prop := mkComputer {
  co_ram : ram_host Hs mo;
  co_wait : forall b p v t, snd (snd (h_write_io Hs b p v t)) = None }.
(** ... and never for a break. *)
Definition unbroken {TS WB RB BS CK} (Hs : host TS WB RB BS CK) : Prop :=
  forall b p v t, fst (snd (h_write_io Hs b p v t)) = None.

(** Bytes written to ports, the port numbers first. *)
Definition outs := list (Z * Z).
Definition outs_of {WB RB} (bl : list (bev WB RB)) : outs :=
  flat_map (fun e => match e with VOut p v _ _ => [(p, v)] | _ => [] end) bl.
(** Memory is read below [top] only, and written from [rom] to [top] only. *)
Definition in_bounds {WB RB} (rom top : Z) (bl : list (bev WB RB)) : Prop :=
  Forall (fun e => match e with
    | VOp a _ _ | VRd a _ => 0 <= a < top
    | VWr a _ => rom <= a < top
    | VIn _ _ _ | VReti _ _ | VAck _ _ _ | VIrq _ => False
    | VOut _ _ _ _ => True end) bl.

(** [run_debug] of the test (shuffle_test.rs:199-270): steps until HALT.  Requests for a break are ignored here, the test has
    none. *)
Fixpoint run_to_halt {Q TS WB RB} (FL : Flavour Q) (dbg : bool) (fuel : nat) (c : cpu Q) : prog TS WB RB (option (cpu Q)) :=
  match fuel with
  | O => Ret None
  | S n =>
      if halt c then Ret (Some c)
      else pbind (execute_next FL dbg c) (fun x =>
        match snd x with
        | Some BHalt => Ret (Some (fst x))
        | _ => run_to_halt FL dbg n (fst x)
        end)
  end.

(** [n] bytes of memory from [a] on. *)
Definition cells (m : mem) (a : Z) (n : nat) : list Z := map (fun i => m (a + Z.of_nat i)) (seq 0 n).

(** [run_with_limits] of the test (shuffle_test.rs:272-294): [execute_with_limit] until HALT; a break asked for by a device is
    followed by another call.  [resume] is what the caller does to the bus in between (the test takes the byte out, and stores it);
    [da] are debug assertions.  The clock reaching the limit, and all other causes, are panics: no derivation. *)
Inductive run_with_limits {Q TS WB RB BS CK} (FL : Flavour Q) (da : bool) (Hs : host TS WB RB BS CK) (resume : WB -> BS -> BS) :
  cpu Q -> BS -> CK -> cpu Q -> BS -> CK -> list (ev TS WB RB) -> Prop :=
| rl_halt fuel c b k c' b' k' l :
    runl Hs (execute_with_limit FL da fuel c) b k = Some (Some (c', Some BHalt), b', k', l) ->
    run_with_limits FL da Hs resume c b k c' b' k' l
| rl_break fuel w c b k c1 b1 k1 l1 c' b' k' l :
    runl Hs (execute_with_limit FL da fuel c) b k = Some (Some (c1, Some (BWriteIo w)), b1, k1, l1) ->
    run_with_limits FL da Hs resume c1 (resume w b1) k1 c' b' k' l ->
    run_with_limits FL da Hs resume c b k c' b' k' (l1 ++ l).
(** Whatever the caller does, it leaves memory alone. *)
Definition keeps {WB BS} (mo : BS -> mem) (resume : WB -> BS -> BS) : Prop := forall w b x, mo (resume w b) x = mo b x.

(** ** The sorting routines *)
(** The test's memory: the code of the program below 712, and the address of a routine where the start-up code finds it
    (shuffle_test.rs:144, 155). *)
Definition loaded (m : mem) (routine : Z) : Prop :=
  (forall i, 0 <= i < at_seed -> m i = nth (Z.to_nat i) image 0) /\
  m at_routine = routine mod 256 /\ m (at_routine + 1) = routine / 256.
Inductive sorting := Selection | Insertion.
Definition sort_at (s : sorting) (up : bool) : Z :=
  match s, up with
  | Selection, true => at_selection_asc | Selection, false => at_selection_desc
  | Insertion, true => at_insertion_asc | Insertion, false => at_insertion_desc
  end.
(** T-states that are enough, from reset to HALT, whatever the 256 bytes are. *)
Definition sort_time (s : sorting) : Z := match s with Selection => 1589294 | Insertion => 1507174 end.
Definition order (up : bool) : Z -> Z -> Prop := if up then Z.le else Z.ge.
(** What a run from reset in memory [m] to HALT should have done, with bus log [bl] in [t] T-states. *)
Record sorted_run {Q WB RB} (s : sorting) (up : bool) (c' : cpu Q) (m m' : mem) (bl : list (bev WB RB)) (t : Z) : Prop := mkSortedRun {
  sr_halt : halt c' = true;
  sr_pc : get_pc c' = 13;
  sr_sp : get_sp c' = at_stackend;
  sr_perm : Permutation (cells m at_target 256) (cells m' at_target 256);
  sr_sorted : StronglySorted (order up) (cells m' at_target 256);
  sr_frame : forall x, ~ at_target <= x < at_target + 256 -> ~ at_stackend - 6 <= x < at_stackend -> m' x = m x;
  sr_silent : outs_of bl = [];
  sr_bounds : in_bounds at_seed at_stackend bl;
  sr_time : t <= sort_time s }.
