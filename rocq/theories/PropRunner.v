(** C53. *)
From Coq Require Import ZArith Bool List.
From Verif Require Import Base Parse Cpu Flavours Prog Trace Exec Demo SpecIsa IsaRun RalMemory RalBus RalRunner SpecRal SpecRunner RalRunnerProofs PropRal.
Import ListNotations.
Open Scope Z_scope.

(** The runner of the example computer keeps the time: with devices that ask for no wait states, the steps take together what the frames
    should take and at most 22 T-states more, however many there are.  The clock is the time since the start, with whole seconds taken
    off so that it stays between one second and little more than two.  *)
Theorem C53_rate : forall Q T D (FL : Flavour Q) (ch : chip T) absq, models FL ch absq ->
  forall (dv : dev D) ext fhz hz r, waitless dv -> 0 <= fhz -> runner_new ext fhz hz = Some r -> 22 <= hz -> 2 * hz + hz / fhz + 22 < 2 ^ 32 ->
  forall da fuel n c b w w' l,
  runner_start FL dv (mkWorld r c b) = Done w -> runner_steps FL da 255 124 dv n fuel w = Done (w', l) ->
  let t := tc_cur (rn_clock (w_run w')) in
  length l = n /\ Z.of_nat n * (hz / fhz) <= sum l <= Z.of_nat n * (hz / fhz) + 22 /\
  hz <= t <= 2 * hz + hz / fhz + 22 /\ exists seconds, 0 <= seconds /\ t + seconds * hz = hz + sum l.
Proof.
  intros Q T D FL ch absq M dv ext fhz hz r WL F0 N HZ HT da fuel n c b w w' l.
  exact (rate FL ch absq (models_ok _ _ _ M) dv ext fhz hz r WL F0 N HZ da fuel n c b w w' l HT).
Qed.
(** If moreover the devices do not panic, ask for no breaks, do not answer an acknowledge with EI and have a steady interrupt line, nothing
    stops the machine, whatever is in the memory: any number of steps can be made, with a bound on the number of instructions of a step
    that depends on the frame only, and the NMI button works after any of them. *)
Theorem C53_runs : forall Q T D (FL : Flavour Q) (ch : chip T) absq, models FL ch absq ->
  forall (dv : dev D) ext fhz hz r, waitless dv -> 0 <= fhz -> runner_new ext fhz hz = Some r -> 22 <= hz ->
  forall ok top c rom kb m0 ops m a d da fuel, polite dv ok hz top -> top <= 2 ^ 32 -> 2 * hz + hz / fhz + 33 < top ->
  0 <= kb -> mem_new rom kb = Some m0 -> all_allowed [] ops -> mem_run ops m0 = Some (m, a) -> ok 0 d -> hz / fhz + 22 <= 4 * (Z.of_nat fuel - 1) ->
  exists w, runner_start FL dv (mkWorld r c (Some (m, d))) = Done w /\
  forall n, exists w' l, runner_steps FL da 255 124 dv n fuel w = Done (w', l) /\
  let c' := w_cpu w' in let allowed := is_int_allowed (prefix c') (last_ei c') in
  exists w2, runner_nmi FL 255 124 dv w' = Done (w2, if allowed then Some 11 else None) /\
    tc_cur (rn_clock (w_run w2)) = tc_cur (rn_clock (w_run w')) + (if allowed then 11 else 0) /\
    (allowed = false -> w_cpu w2 = c') /\ (allowed = true -> pc (w_cpu w2) = 0x66).
Proof. intros Q T D FL ch absq M dv ext fhz hz r WL F0 N HZ. exact (runs FL ch absq (models_ok _ _ _ M) dv ext fhz hz r WL F0 N HZ). Qed.
(** A machine without devices is such a machine. *)
Theorem C53_bare : forall hz top, waitless terminator /\ polite terminator (fun _ _ => True) hz top.
Proof. exact terminator_polite. Qed.
(** Not every clock that passes the runner's check works: two seconds must fit into the timestamp. *)
Theorem C53_valid_clock_refuted : exists ext fhz hz r, clock_is_valid ext hz = Some true /\ 0 < fhz <= ext /\ 0 < hz < 2 ^ 32 /\
  runner_new ext fhz hz = Some r /\
  forall Q D (FL : Flavour Q) (dv : dev D) da mask bits fuel c b w, runner_start FL dv (mkWorld r c b) = Done w ->
    runner_step FL da mask bits dv fuel w = Panicked.
Proof.
  exists 10000, 500, 2147500000. eexists. split; [reflexivity|]. split; [split; [reflexivity|discriminate]|]. split; [split; reflexivity|]. split; [reflexivity|].
  intros Q D FL dv da mask bits fuel c b w. unfold runner_start. destruct (bus_reset _ _ _) as [x|]; [|discriminate]. cbn [with_bus]. intros [= <-]. reflexivity.
Qed.
Definition C53_all := (@C53_rate, @C53_runs, @C53_bare, @C53_valid_clock_refuted).
Print Assumptions C53_all.

(** A clock of 1030 Hz with 10 frames a second and the program of PropRal.v, which ends with HALT: 25 frames of 103 T-states, the clock goes twice round. *)
Definition frames (n : nat) : outcome (Z * Z * Z * Z * list Z) :=
  match runner_new 5 10 1030, ral_ready with
  | Some r, Some m =>
      match runner_start NMOS terminator (mkWorld r (nm 0) (Some (m, tt))) with
      | Done w => match runner_steps NMOS true 255 124 terminator n 32 w with
          | Done (w, l) => Done (tc_cur (rn_clock (w_run w)), rn_limit (w_run w), pc (w_cpu w), sum l, l)
          | More => More
          | Panicked => Panicked
          end
      | _ => Panicked
      end
  | _, _ => Panicked
  end.
Example C53_ex :
  match frames 25 with Done (t, lim, p, s, l) => (t, lim, p, s, firstn 8 l) = (1546, 1545, 0x4006, 2576, [104; 104; 104; 100; 104; 104; 104; 100]) | _ => False end.
Proof. vm_compute. reflexivity. Qed.
