(** What the timers of the CTC have to do. *)
From Coq Require Import ZArith Bool List.
From Verif Require Import Base RalBus RalCtc SpecPio.
Import ListNotations.
Open Scope Z_scope.

(** A timer with the time constant [n] (0 is 256) counts down by one in 16 or 256 T-states, from the start at [s]. *)
Definition span (n : Z) : Z := if n =? 0 then 256 else n.
Definition tick (x16 : bool) : Z := if x16 then 16 else 256.
Definition counter_at (x16 : bool) (n s t : Z) : Z := (span n - (Z.max 0 (t - s) / tick x16) mod span n) mod 256.
(** How often it has come to zero, and when. *)
Definition zeros (x16 : bool) (n s t : Z) : Z := Z.max 0 (t - s) / (tick x16 * span n).
Definition zero_time (x16 : bool) (n s j : Z) : Z := s + j * (tick x16 * span n).
Definition zero_times (x16 : bool) (n s t : Z) : list Z :=
  map (fun j => zero_time x16 n s (Z.of_nat j)) (seq 1 (Z.to_nat (zeros x16 n s t))).

(** A trigger that remembers the pulses on a tape. *)
Definition taped_trig {W} (g : trig W) : trig (W * list Z) :=
  mkTrig (fun r t w => option_map (fun x => ((fst x, snd w), snd x)) (tg_next g r t (fst w)))
    (fun t w => option_map (fun x => ((fst x, snd w), snd x)) (tg_purge g t (fst w)))
    (fun t w => option_map (fun x => (x, snd w ++ [t])) (tg_pulse g t (fst w)))
    (fun t w => option_map (fun x => (x, snd w)) (tg_second g t (fst w))).
Fixpoint processes {W} (g : trig W) (ts : list Z) (c : cchan) (w : W) : option (cchan * W) :=
  match ts with [] => Some (c, w) | t :: ts => match process g t c w with Some (c, w) => processes g ts c w | None => None end end.

(** The channels by number. *)
Definition ct_chan {W D} (i : Z) (p : ctc W D) : cchan := if i =? 0 then ct_0 p else if i =? 1 then ct_1 p else if i =? 2 then ct_2 p else ct_3 p.
(** Channel control words for a timer: reset, time constant follows, started by it, x16 or x256, with or without interrupts. *)
Definition timer_word (v : Z) : Prop := Z.testbit v 0 = true /\ Z.testbit v 1 = true /\ Z.testbit v 2 = true /\ Z.testbit v 3 = false /\ Z.testbit v 6 = false.
(** The order of time: nothing happens before [now]; with each second [delta] is taken off all times. *)
Fixpoint in_time (now : Z) (ops : list bop) : Prop :=
  match ops with
  | [] => True
  | BSecond delta :: ops => 0 <= delta <= now /\ in_time (now - delta) ops
  | o :: ops => now <= op_time o /\ in_time (op_time o) ops
  end.
Fixpoint clock (now : Z) (ops : list bop) : Z := match ops with [] => now | BSecond delta :: ops => clock (now - delta) ops | o :: ops => clock (op_time o) ops end.
Fixpoint wrapped (ops : list bop) : Z := match ops with [] => 0 | BSecond delta :: ops => delta + wrapped ops | _ :: ops => wrapped ops end.
(** Nothing is written to the channel and the chip is not reset. *)
Definition untouched (i : Z) (o : bop) : Prop := is_reset o = false /\ word_to (4 + i) o = None.
Definition no_ack (o : bop) : Prop := match o with BAck _ _ => False | _ => True end.
(** The program starts a timer with the word [v] and the constant [n], written at [t]. *)
Definition starts_timer (i v n t : Z) (ops : list bop) : Prop :=
  exists q1 t1 mid q2, ops = BOut q1 v t1 :: mid ++ [BOut q2 n t] /\ q1 mod 256 = 4 + i /\ q2 mod 256 = 4 + i /\ timer_word v /\ 0 <= n < 256 /\ 0 <= t /\ Forall (untouched i) mid.
