(** C55. *)
From Coq Require Import ZArith Bool List.
From Verif Require Import Base Parse Cpu Flavours Prog Exec Demo RalMemory RalRunner RalBus RalPio SpecPio RalCtc SpecCtc RalCtcChip RalCtcRun RalCtcSoon.
Import ListNotations.
Open Scope Z_scope.

(** A timer of the CTC counts down by one in 16 or 256 T-states, starting with the one after its constant was written: whatever else is
    done to the chip and whatever the others do, this is what the program reads, after whole seconds were taken off the clock too. *)
Theorem C55_counts : forall D (dv : dev D) i v n t2 start ops q t p p' l,
  0 <= i < 4 -> starts_timer i v n t2 start -> cc_await (ct_chan i p) = false -> Forall (untouched i) ops -> q mod 256 = 4 + i -> in_time t2 (ops ++ [BIn q t]) ->
  dev_ops (ral_ctc dv) (start ++ ops ++ [BIn q t]) p = Some (p', l) ->
  exists l1, l = l1 ++ [(BIn q t, AByte (counter_at (negb (Z.testbit v 5)) n (t2 + 1 - wrapped ops) t))].
Proof. intros D dv i v n t2 start ops q t p p' l I. exact (read_timer _ _ _ _ dv i (chan_four i I) v n t2 start ops q t p p' l). Qed.
(** It makes a pulse each time it comes to zero, with the right time on it, no matter when and how often it is looked at. *)
Theorem C55_pulses : forall W (g : trig W) v n t1 t2 ts c w c1 w1 c2 w2 c3 w3 b1 b2, timer_word v -> 0 <= n < 256 -> cc_await c = false ->
  cc_write (taped_trig g) v t1 c w = Some (c1, w1, b1) -> cc_write (taped_trig g) n t2 c1 w1 = Some (c2, w2, b2) ->
  processes (taped_trig g) ts c2 w2 = Some (c3, w3) ->
  snd w3 = snd w2 ++ zero_times (negb (Z.testbit v 5)) n (t2 + 1) (fold_left Z.max ts (t2 + 1)).
Proof. intros W g v n t1 t2 ts c w c1 w1 c2 w2 c3 w3 b1 b2. exact (pulses g v n t1 t2 ts c w c1 w1 c2 w2 c3 w3 b1 b2). Qed.
(** With interrupts the chip asks for one when it has come to zero since [opsa] and nothing was acknowledged after them - from the time on
    the chip had noted for its next look before the timer was started. *)
Theorem C55_request : forall D (dv : dev D) i v n t2 start opsa opsb t p p0 l0 p1 l1 p2 l,
  0 <= i < 4 -> starts_timer i v n t2 start -> cc_await (ct_chan i p) = false ->
  Forall (untouched i) (opsa ++ opsb) -> Forall no_ack opsb -> in_time t2 (opsa ++ opsb ++ [BIrq t]) ->
  dev_ops (ral_ctc dv) start p = Some (p0, l0) -> dev_ops (ral_ctc dv) opsa p0 = Some (p1, l1) -> dev_ops (ral_ctc dv) (opsb ++ [BIrq t]) p1 = Some (p2, l) ->
  ct_ieo p1 = false -> Z.testbit v 7 = true ->
  let x16 := negb (Z.testbit v 5) in let s := t2 + 1 - wrapped opsa in
  zeros x16 n s (clock t2 opsa) < zeros x16 n (s - wrapped opsb) t -> ct_hint p0 - wrapped opsa - wrapped opsb <= t ->
  exists l1, l = l1 ++ [(BIrq t, ALine true)].
Proof. intros D dv i v n t2 start opsa opsb t p p0 l0 p1 l1 p2 l I. exact (request _ _ _ _ dv i (chan_four i I) v n t2 start opsa opsb t p p0 l0 p1 l1 p2 l). Qed.
(** This time is at most half a period of the external clock ahead, if one of the channels with that clock was never written to. *)
Theorem C55_soon : forall D (dv : dev D) ext d k p00 before i v n t2 start opsa opsb t p lb p0 l0 p1 l1 p2 l,
  0 <= i < 4 -> k = 0 \/ k = 2 -> 0 <= ext -> ral_ctc_new ext d = Some p00 -> dev_ops (ral_ctc dv) before p00 = Some (p, lb) ->
  starts_timer i v n t2 start -> cc_await (ct_chan i p) = false -> in_time 0 (before ++ start) -> Forall (fun o => word_to (4 + k) o = None) (before ++ start) ->
  Forall (untouched i) (opsa ++ opsb) -> Forall no_ack opsb -> in_time t2 (opsa ++ opsb ++ [BIrq t]) ->
  dev_ops (ral_ctc dv) start p = Some (p0, l0) -> dev_ops (ral_ctc dv) opsa p0 = Some (p1, l1) -> dev_ops (ral_ctc dv) (opsb ++ [BIrq t]) p1 = Some (p2, l) ->
  ct_ieo p1 = false -> Z.testbit v 7 = true ->
  let x16 := negb (Z.testbit v 5) in let s := t2 + 1 - wrapped opsa in
  zeros x16 n s (clock t2 opsa) < zeros x16 n (s - wrapped opsb) t -> t2 + ext / 2 - wrapped opsa - wrapped opsb <= t ->
  exists l1, l = l1 ++ [(BIrq t, ALine true)].
Proof.
  intros D dv ext d k p00 before i v n t2 start opsa opsb t p lb p0 l0 p1 l1 p2 l I.
  exact (request_soon dv ext d k p00 before i v n t2 start opsa opsb t p lb p0 l0 p1 l1 p2 l (chan_four i I)).
Qed.
(** The request does not come before the timer was at zero. *)
Theorem C55_not_early : forall D (dv : dev D) i v n t2 start ops p p0 l0 p1 l1,
  0 <= i < 4 -> starts_timer i v n t2 start -> cc_await (ct_chan i p) = false -> Forall (untouched i) ops -> Forall no_ack ops -> in_time t2 ops ->
  dev_ops (ral_ctc dv) start p = Some (p0, l0) -> dev_ops (ral_ctc dv) ops p0 = Some (p1, l1) ->
  zeros (negb (Z.testbit v 5)) n (t2 + 1 - wrapped ops) (clock t2 ops) = 0 -> cc_int (ct_chan i p1) = cc_int (ct_chan i p0).
Proof. intros D dv i v n t2 start ops p p0 l0 p1 l1 I. exact (not_early _ _ _ _ dv i (chan_four i I) v n t2 start ops p p0 l0 p1 l1). Qed.

(** A timer started while the other clocked channels run slow ones asks too late: not even after 59 times at zero. *)
Definition slow_timers : list bop := [BReset 0; BOut 4 0x27 4; BOut 4 0 8; BOut 6 0x27 12; BOut 6 0 16; BM1 20; BM1 24].
Theorem C55_late_refuted : exists p00 p lb p0 l0 p2 l t2 t start ops,
  ral_ctc_new 350 tt = Some p00 /\ dev_ops (ral_ctc terminator) slow_timers p00 = Some (p, lb) /\
  starts_timer 1 0x87 1 t2 start /\ cc_await (ct_1 p) = false /\ Forall (untouched 1) ops /\ Forall no_ack ops /\ in_time t2 (ops ++ [BIrq t]) /\
  dev_ops (ral_ctc terminator) start p = Some (p0, l0) /\ ct_ieo p0 = false /\ Z.testbit 0x87 7 = true /\
  dev_ops (ral_ctc terminator) (ops ++ [BIrq t]) p0 = Some (p2, l) /\ zeros true 1 (t2 + 1) t = 59 /\ l = [(BM1 100, ANone); (BM1 500, ANone); (BIrq t, ALine false)].
Proof.
  do 7 eexists. exists 40, 1000, [BOut 5 0x87 30; BOut 5 1 40], [BM1 100; BM1 500].
  split; [vm_compute; reflexivity|]. split; [vm_compute; reflexivity|].
  split; [exists 5, 30, [], 5; split; [reflexivity|]; split; [reflexivity|]; split; [reflexivity|]; split; [vm_compute; auto|]; split; [split; [discriminate|reflexivity]|]; split; [discriminate|constructor]|].
  split; [vm_compute; reflexivity|]. split; [repeat constructor|]. split; [repeat constructor|]. split; [cbn; repeat split; discriminate|].
  split; [vm_compute; reflexivity|]. split; [vm_compute; reflexivity|]. split; [reflexivity|]. split; [vm_compute; reflexivity|]. split; [vm_compute; reflexivity|]. vm_compute. reflexivity.
Qed.
(** On channel 0 this ends in a panic, though the processor fetches opcodes all the time. *)
Theorem C55_panic_refuted : exists p00 p l ops1 ops2, ral_ctc_new 350 tt = Some p00 /\
  ops1 = [BReset 0; BOut 4 0x27 4; BOut 4 1 8; BOut 6 0x27 12; BOut 6 1 16; BM1 20; BM1 24; BOut 4 0x07 30; BOut 4 1 40] /\
  ops2 = map (fun k => BM1 (40 + 15 * Z.of_nat k)) (seq 1 14) /\
  dev_ops (ral_ctc terminator) (ops1 ++ ops2) p00 = Some (p, l) /\ dev_do (ral_ctc terminator) (BM1 265) p = None.
Proof. do 5 eexists. split; [vm_compute; reflexivity|]. split; [reflexivity|]. split; [reflexivity|]. split; [vm_compute; reflexivity|]. vm_compute. reflexivity. Qed.
(** And so does the frame runner with the program DI; LD A,7; OUT (4),A; LD A,1; OUT (4),A; HALT in the ROM, in its first frame. *)
Definition di_halt_rom : list Z := [0xF3; 0x3E; 0x07; 0xD3; 0x04; 0x3E; 0x01; 0xD3; 0x04; 0x76].
Theorem C55_machine_refuted : exists r m d w, runner_new 10000 500 100000 = Some r /\ mem_new di_halt_rom 16 = Some m /\ ral_ctc_new 10 tt = Some d /\
  runner_start NMOS (ral_ctc terminator) (mkWorld r (nm 0) (Some (m, d))) = Done w /\ runner_step NMOS true 255 124 (ral_ctc terminator) 64 w = Panicked.
Proof.
  do 4 eexists. split; [vm_compute; reflexivity|]. split; [vm_compute; reflexivity|]. split; [vm_compute; reflexivity|]. split; [vm_compute; reflexivity|]. vm_compute. reflexivity.
Qed.
(** The chip is not told when the time begins, so after a reset at 3500000 a counter of 100 cycles of the 10 kHz clock is through after 6
    T-states. *)
Theorem C55_counter_refuted : exists p00 p l, ral_ctc_new 350 tt = Some p00 /\
  dev_ops (ral_ctc terminator) [BReset 3500000; BM1 3500004; BM1 3500011; BOut 4 0xC7 3500020; BM1 3500024; BOut 4 100 3500040; BIrq 3500046] p00 = Some (p, l) /\
  last l (BM1 0, ANone) = (BIrq 3500046, ALine true).
Proof. do 3 eexists. split; [vm_compute; reflexivity|]. split; [vm_compute; reflexivity|]. vm_compute. reflexivity. Qed.
Definition C55_all := (@C55_counts, @C55_pulses, @C55_request, @C55_soon, @C55_not_early, C55_late_refuted, C55_panic_refuted, C55_machine_refuted, C55_counter_refuted).
Print Assumptions C55_all.

(** Channel 3 with x16 and the constant 3, that is 48 T-states; a second of 100000 T-states is taken off on the way. *)
Definition C55_session : list bop :=
  [BReset 100000; BOut 7 0x40 100010; BOut 7 0x87 100020; BOut 7 3 100040; BIn 7 100041; BIn 7 100060; BIn 7 100072; BIrq 100088; BIrq 100091; BAck 0 100100; BIrq 100101;
   BSecond 100000; BReti 0 130; BIn 7 140; BIrq 180; BIn 7 190].
Example C55_ex :
  match ral_ctc_new 350 tt with
  | Some p => match dev_ops (ral_ctc terminator) C55_session p with Some (_, l) =>
      (filter (fun x => match x with ANone => false | _ => true end) (map snd l), map (counter_at true 3 100041) [100041; 100060; 100072; 100140; 100190], map (zeros true 3 100041) [100088; 100091; 100180])
      = ([AByte 3; AByte 2; AByte 2; ALine false; ALine true; AByte 0x46; ALine false; AByte 3; ALine true; AByte 3], [3; 2; 2; 3; 3], [0; 1; 2]) | None => False end
  | None => False
  end.
Proof. vm_compute. reflexivity. Qed.
