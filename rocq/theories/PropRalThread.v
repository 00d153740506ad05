(** Property C65: the orders of the example computer's debugger. *)
From Coq Require Import ZArith Bool String List Lia.
From Verif Require Import Base Parse Cpu Flavours Prog Trace Exec Demo Range SpecState SpecIsa SpecInt SpecDebug RalMemory RalBus RalRunner RalDebug SpecRalDebug PropRalDebug
  RalThread SpecRalThread RalThreadProofs.
Import ListNotations.
Open Scope list_scope.
Open Scope Z_scope.

(** Running to a return or an interrupt frame after frame: nothing of the kind is passed in the frames before; and if there is no report, it
    was looked for in one frame more than asked for. *)
Theorem C65_orders : forall Q D (FL : Flavour Q) mask bits (dv : dev D) n frames w, wf (w_cpu w) /\ fits w ->
  (forall start w' d t, run_for (debug_runto_ret FL mask bits dv n) start frames w = Done (w', (d, t)) -> to_return FL mask bits dv frames w w' d (t - start)) /\
  (forall start w' d t, run_for (debug_runto_int FL mask bits dv n) start frames w = Done (w', (d, t)) -> to_int FL mask bits dv frames w w' d (t - start)).
Proof. intros Q D FL mask bits dv. exact (orders_spec FL mask bits dv). Qed.
(** "Run to completion" is a step of the debugger.  If that was a return, it is all; if it was a call, the program runs to the instruction after
    it; otherwise it runs to the next return. *)
Theorem C65_completion : forall Q D (FL : Flavour Q) mask bits (dv : dev D) search n hz w w' d t, (forall p, searches search [p]) -> wf (w_cpu w) /\ fits w ->
  run_to_completion FL mask bits dv search n hz w = Done (w', (d, t)) ->
  exists w1 d1 t1, debug_step FL mask bits dv n w = Done (w1, (d1, t1)) /\
    match d1 with
    | None => to_return FL mask bits dv hz w1 w' d (t - t1)
    | Some x =>
        (w' = w1 /\ d = Some x /\ t = t1 /\ (well_described x -> Forall byte (dcode x) -> returns x (w_cpu w1))) \/
        (d = None /\ to_pc FL mask bits dv ((dpc x + Z.of_nat (List.length (dcode x))) mod 65536) hz w1 w' (t - t1) /\ (well_described x -> Forall byte (dcode x) -> calls x (w_cpu w1))) \/
        (to_return FL mask bits dv hz w1 w' d (t - t1) /\ (well_described x -> Forall byte (dcode x) -> ~ returns x (w_cpu w1) /\ ~ calls x (w_cpu w1)))
    end.
Proof. intros Q D FL mask bits dv. exact (completion_spec FL mask bits dv). Qed.
(** They come to an end without a panic if each run of the debugger does and the T-states fit; [P k]: machines with [k] more frames to go. *)
Theorem C65_runs : forall Q D (FL : Flavour Q) mask bits (dv : dev D) search n hz w w1 d1 t1 (P : nat -> world Q D -> Prop) top, debug_step FL mask bits dv n w = Done (w1, (d1, t1)) ->
  (forall x, d1 = Some x -> well_described x /\ Forall byte (dcode x)) -> P hz w1 -> 0 <= t1 -> t1 + (Z.of_nat hz + 1) * top < 2 ^ 32 ->
  (forall k a, P k a -> exists w' d t, debug_runto_ret FL mask bits dv n a = Done (w', (d, t)) /\ 0 <= t <= top /\ (d = None -> forall j, k = S j -> P j w')) ->
  (forall x k a, d1 = Some x -> P k a -> exists w' d t, run_until_brkpt FL mask bits dv search n [(dpc x + Z.of_nat (List.length (dcode x))) mod 65536] a = Done (w', (d, t)) /\
     0 <= t <= top /\ (d = None -> forall j, k = S j -> P j w')) ->
  exists x, run_to_completion FL mask bits dv search n hz w = Done x.
Proof. intros Q D FL mask bits dv. exact (completion_total FL mask bits dv). Qed.
Theorem C65_frames_run : forall Q D E (debug : world Q D -> outcome (world Q D * (option E * Z))) (P : nat -> world Q D -> Prop) top,
  (forall k w, P k w -> exists w' d t, debug w = Done (w', (d, t)) /\ 0 <= t <= top /\ (d = None -> forall j, k = S j -> P j w')) ->
  forall frames start w, P frames w -> 0 <= start -> start + (Z.of_nat frames + 1) * top < 2 ^ 32 -> exists x, run_for debug start frames w = Done x.
Proof. intros Q D E. exact run_for_total. Qed.

(** CALL 5000h there and back; a return at once; NOP; RET.  Frames of 20 T-states. *)
Definition complete (c : cpu qstate) (l l5 : list Z) :=
  match run_to_completion NMOS 255 124 (caller 4) linear 9 5 (machine 20 false c l l5) with Done (w, (d, t)) => Some (option_map dmnemonic d, pc (w_cpu w), t) | _ => None end.
Example C65_ex_completion :
  complete (set_sp 0x8000 (nm 0x4000)) [0xCD; 0; 0x50; 0] [0; 0; 0; 0; 0xC9] = Some (None, 0x4003, 43) /\
  complete (set_sp 0x5000 (nm 0x4000)) [0xC9] [0x21; 0x43] = Some (Some "RET"%string, 0x4321, 10) /\
  complete (set_sp 0x5000 (nm 0x4000)) [0; 0xC9] [0x21; 0x43] = Some (Some "RET"%string, 0x4321, 14) /\
  wf (w_cpu (machine 20 false (set_sp 0x8000 (nm 0x4000)) [] [])) /\ fits (machine 20 false (set_sp 0x8000 (nm 0x4000)) [] []).
Proof. vm_compute. repeat split; discriminate. Qed.
(** NOP; NOP; NOP; EI; NOP and the interrupt, in frames of 8 T-states. *)
Example C65_ex_orders : summary_of (run_for (debug_runto_int NMOS 255 124 (caller 4) 9) 100 5 (machine 8 true (set_iffs false false im2_4000) [0; 0; 0; 0xFB; 0; 0] [0; 0; 0; 0; 0x34; 0x12])) =
  Some ([0x34; 0x12], "IRQ#"%string, 0x4005, 0x1234, 139).
Proof. vm_compute. reflexivity. Qed.
(** NOP; RET: what C65_runs asks for. *)
Example C65_ex_runs : let w := machine 20 false (set_sp 0x5000 (nm 0x4000)) [0; 0xC9] [0x21; 0x43] in
  exists w1 x, debug_step NMOS 255 124 (caller 4) 9 w = Done (w1, (Some x, 4)) /\ dcode x = [0] /\ dpc x = 0x4000 /\ well_described x /\
    (forall k a, k = 500%nat /\ a = w1 -> exists w' d t, debug_runto_ret NMOS 255 124 (caller 4) 9 a = Done (w', (d, t)) /\ 0 <= t <= 20 /\ d <> None) /\
    (forall k a, k = 500%nat /\ a = w1 -> exists w' d t, run_until_brkpt NMOS 255 124 (caller 4) linear 9 [0x4001] a = Done (w', (d, t)) /\ 0 <= t <= 20 /\ d <> None).
Proof.
  cbv zeta. eexists _, _. split; [vm_compute; reflexivity|]. split; [reflexivity|]. split; [reflexivity|]. split; [|split].
  - exists 0, []. repeat split; try reflexivity. intros []. reflexivity.
  - intros k a [_ ->]. eexists _, _, _. split; [vm_compute; reflexivity|]. split; [lia|discriminate].
  - intros k a [_ ->]. eexists _, _, _. split; [vm_compute; reflexivity|]. split; [lia|discriminate].
Qed.
Example C65_ex_search : forall p, searches linear [p].
Proof.
  intros p q. cbv beta iota delta [linear look]. destruct (Z.eqb_spec p q) as [->|N]; [reflexivity|]. destruct (Z.ltb_spec q p).
  all: split; intros j x Hj E; destruct j as [|[|j]]; cbn in E; try discriminate E; injection E as <-; lia.
Qed.
(** ** What is not so *)
(** It is not run "for given amount of frames": no frame is one of 8 T-states, and one frame is two of them. *)
Definition idle_for (w : world qstate bool) (frames : nat) := match run_for (debug_runto_ret NMOS 255 124 (caller 4) 9) 0 frames w with Done (_, (None, t)) => Some t | _ => None end.
Theorem C65_frames_refuted : exists w, wf (w_cpu w) /\ fits w /\ rn_frame (w_run w) = 8 /\ idle_for w 0 = Some 8 /\ idle_for w 1 = Some 16.
Proof. exists (machine 8 false (nm 0x4000) [0; 0; 0; 0; 0; 0; 0; 0] []). vm_compute. repeat split; discriminate. Qed.
Definition C65_all := (@C65_orders, @C65_completion, @C65_runs, @C65_frames_run, @C65_frames_refuted).
Print Assumptions C65_all.
