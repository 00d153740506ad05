(** C59. *)
From Coq Require Import ZArith Bool List.
From Verif Require Import Base RalBus RalPio SpecPio RalCtc SpecCtc SpecLine RalLine.
Import ListNotations.
Open Scope Z_scope.

(** What the one end of a trigger line hears is what the other end has sent, in this order and at these times. *)
Theorem C59_order : forall cap ops l l' log, ln_pulses l = [] -> Forall no_second ops -> line_ops cap ops l = Some (l', log) -> in_order on_time (sent 0 log) (heard 0 log).
Proof. exact order_eq. Qed.
(** When seconds are taken off in between a pulse may be heard late, but the order is still the same and nothing is made up. *)
Theorem C59_order_seconds : forall cap ops l l' log, ln_pulses l = [] -> line_ops cap ops l = Some (l', log) -> in_order late (sent 0 log) (heard 0 log).
Proof. exact order_le. Qed.
(** Nothing is lost unless it is let go: when nothing more is heard at [t], the next pulse sent is not due. *)
Theorem C59_all_heard : forall cap ops l l' log r t l2, ln_pulses l = [] -> Forall no_second ops -> Forall no_drop ops ->
  line_ops cap ops l = Some (l', log) -> line_do cap (LHear r t) l' = Some (l2, None) ->
  exists s1 s2, sent 0 log = s1 ++ s2 /\ Forall2 on_time s1 (heard 0 log) /\ match s2 with [] => True | x :: _ => t < due r x end.
Proof. exact all_heard. Qed.
(** There is room for [cap] pulses not heard yet; one more is a panic. *)
Theorem C59_room : forall cap ops l l' log, ln_pulses l = [] -> Forall no_drop ops -> line_ops cap ops l = Some (l', log) ->
  exists s1 s2, sent 0 log = s1 ++ s2 /\ Forall2 late s1 (heard 0 log) /\ (length s2 <= cap)%nat /\ forall t, line_do cap (LSend t) l' = None <-> length s2 = cap.
Proof. exact lossless. Qed.
(** A counter counts the edges it is given, makes a pulse with each [n]th of them, at its time, and asks for an interrupt if it should. *)
Theorem C59_counter : forall W (g : trig W) v n t1 t2 ts t c w c1 w1 c2 w2 c3 w3 b1 b2, counter_word v -> 0 <= n < 256 -> cc_await c = false ->
  cc_write (tape_trig g) v t1 c w = Some (c1, w1, b1) -> cc_write (tape_trig g) n t2 c1 w1 = Some (c2, w2, b2) -> processes (tape_trig g) (ts ++ [t]) c2 w2 = Some (c3, w3) ->
  exists e p, tp_edges w3 = tp_edges w2 ++ e /\ tp_pulses w3 = tp_pulses w2 ++ p /\ cc_cur c3 = counted n (Z.of_nat (length e)) /\ each_nth n e p /\
    cc_int c3 = cc_int c2 || (Z.testbit v 7 && (span n <=? Z.of_nat (length e))).
Proof. intros W g v n t1 t2 ts t c w c1 w1 c2 w2 c3 w3 b1 b2. exact (counters g v n t1 t2 ts t c w c1 w1 c2 w2 c3 w3 b1 b2). Qed.
(** A counter of the external clock is given its edges, one after the other, and all of them up to [t], except when it stopped at zero. *)
Theorem C59_clock : forall cap half m v n t1 t2 ts t c w c1 w1 c2 w2 c3 w3 b1 b2, counter_word v -> 0 <= n < 256 -> cc_await c = false ->
  cc_write (tape_trig (active cap)) v t1 c w = Some (c1, w1, b1) -> cc_write (tape_trig (active cap)) n t2 c1 w1 = Some (c2, w2, b2) -> clocked half m (tp_w w2) ->
  processes (tape_trig (active cap)) (ts ++ [t]) c2 w2 = Some (c3, w3) ->
  exists k, tp_edges w3 = tp_edges w2 ++ map (fun j => edge_time half (Z.testbit v 4) m (Z.of_nat j)) (seq 0 k) /\ cc_cur c3 = counted n (Z.of_nat k) /\
    (t < edge_time half (Z.testbit v 4) m (Z.of_nat k) \/ Z.of_nat k mod span n = 0).
Proof. exact clock_counters. Qed.
(** So when there are more edges than that between two looks the program reads a wrong count: 10 edges up to 100, and a counter of 3 still
    is at 3. *)
Theorem C59_lag_refuted : exists v n c1 w1 c2 w2 c3 w3 x b1 b2, counter_word v /\ 0 <= n < 256 /\
  cc_write (tape_trig (active 4)) v 1 cc_new (mkTape (mkLine 5 0 false []) [] []) = Some (c1, w1, b1) /\ cc_write (tape_trig (active 4)) n 2 c1 w1 = Some (c2, w2, b2) /\
  clocked 5 0 (tp_w w2) /\ read_counter (tape_trig (active 4)) 100 c2 w2 = Some (c3, w3, x) /\ edge_time 5 (Z.testbit v 4) 0 9 <= 100 < edge_time 5 (Z.testbit v 4) 0 10 /\ counted n 10 = 2 /\ x = 3.
Proof.
  exists 0x57, 3. do 9 eexists. split; [vm_compute; auto|]. split; [split; [discriminate|reflexivity]|]. split; [vm_compute; reflexivity|]. split; [vm_compute; reflexivity|].
  split; [split; [reflexivity|split; [discriminate|]; split; [reflexivity|split; reflexivity]]|]. split; [vm_compute; reflexivity|]. split; [split; [discriminate|reflexivity]|]. split; vm_compute; reflexivity.
Qed.
Definition C59_all := (C59_order, C59_order_seconds, C59_all_heard, C59_room, @C59_counter, C59_clock, C59_lag_refuted).
Print Assumptions C59_all.

(** Pulses at 10, 20 and 99; the third is heard at its falling edge in the next second. *)
Example C59_line_ex : match line_ops 2 [LSend 10; LSend 20; LHear true 9; LHear true 30; LSend 99; LHear false 30; LSecond 100; LHear false 1; LHear false 7] (mkLine 50 0 false []) with
  | Some (l, log) => (sent 0 log, heard 0 log, ln_pulses l) = ([10; 20; 99], [(true, 10); (false, 22); (false, 102)], []) | None => False end.
Proof. vm_compute. reflexivity. Qed.
Example C59_full_ex : line_ops 2 [LSend 10; LSend 20; LSend 30] (mkLine 50 0 false []) = None.
Proof. vm_compute. reflexivity. Qed.
(** Channel 0 counts 3 rising edges of a clock with a period of 20 T-states, channel 1 counts 2 pulses of channel 0: zero at 50 and at 110. *)
Definition C59_session : list bop :=
  [BReset 0; BOut 4 0x10 1; BOut 4 0x57 2; BOut 4 3 3; BOut 5 0xD7 4; BOut 5 2 5; BM1 11; BIn 4 12; BM1 31; BIn 4 32; BM1 50; BM1 51; BIn 4 52; BIn 5 53; BIrq 54; BM1 71; BM1 91; BIn 4 92; BM1 109; BIrq 109; BM1 110; BM1 111; BIrq 112; BIn 5 113; BAck 0 114].
Example C59_ex :
  match ral_ctc_new 20 tt with
  | Some p => match dev_ops (ral_ctc terminator) C59_session p with Some (_, l) =>
      filter (fun x => match x with ANone => false | _ => true end) (map snd l) = [AByte 2; AByte 1; AByte 3; AByte 1; ALine false; AByte 1; ALine false; ALine true; AByte 2; AByte 0x12] | None => False end
  | None => False
  end.
Proof. vm_compute. reflexivity. Qed.
