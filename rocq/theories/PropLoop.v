(** Properties C21, C22, C23 and C39: [execute_with_limit]. *)
From Coq Require Import ZArith Bool List Lia.
From Verif Require Import Base Flags Ops Parse Cpu Flavours Prog Trace Internal Instr Exec Range Clock Demo
  SpecAlu SpecState SpecIsa SpecStep SpecReach SpecLoop IsaLink IsaRun Reach Drive Loop.
Import ListNotations.
Open Scope Z_scope.

(** ** C21 *)
(** On every host, however long it runs: [Ok] only directly after a test that found the limit passed - and the clock
    returned is past it; [Err(Halt)] only with the CPU halted. *)
Theorem C21_limit : forall Q T TS WB RB (FL : Flavour Q) (ch : chip T) absq, models FL ch absq ->
  forall BS CK (Hs : host TS WB RB BS CK) da fuel (c : cpu Q) b k c' r b' k' l, wf c ->
  runl Hs (execute_with_limit FL da fuel c) b k = Some (Some (c', r), b', k', l) ->
  (r = None -> h_is_past_limit Hs k' = true /\ exists l0, l = l0 ++ [KPast true]) /\
  (r = Some BHalt -> halt c' = true).
Proof.
  intros Q T TS WB RB FL ch absq M BS CK Hs da fuel c b k c' r b' k' l Hw H.
  exact (ewl21 FL ch absq (models_ok _ _ _ M) Hs da fuel c b k (c', r) b' k' l Hw H).
Qed.
Example C21_ex :
  match runl (demo 10) (execute_with_limit NMOS true 9 (nm 0x100)) (poke 0x100 [0x3E; 5; 0x76] m0) 0,
        runl (demo 99) (execute_with_limit NMOS true 9 (nm 0x100)) (poke 0x100 [0x3E; 5; 0x76] m0) 0 with
  | Some (Some (c1, r1), _, k1, _), Some (Some (c2, r2), _, k2, _) =>
      (r1, k1, halt c1, r2, k2, halt c2) = (Some BHalt, 11, true, Some BHalt, 11, true)
  | _, _ => False end /\
  match runl (demo 5) (execute_with_limit NMOS true 9 (nm 0x100)) (poke 0x100 [0x3E; 5; 0x76] m0) 0 with
  | Some (Some (c1, r1), _, k1, l) => (r1, k1, halt c1, pc c1, last l (KPast false)) = (None, 7, false, 0x102, KPast true)
  | _ => False end.
Proof. vm_compute. repeat split. Qed.
Print Assumptions C21_limit.

(** ** C22 *)
(** Not halted: on every host, with any number of instructions, [execute_with_limit] and repeated [execute_next]
    make the same host calls in the same order and end with the same result; so does the CPU - only the "after EI" flag
    may be left on if a device supplied 0xFB when its interrupt was accepted.  Both directions. *)
Theorem C22_running : forall Q T TS WB RB (FL : Flavour Q) (ch : chip T) absq, models FL ch absq ->
  forall BS CK (Hs : host TS WB RB BS CK) da (c : cpu Q) b k, wf c -> halt c = false ->
  (forall fuel c' r b' k' l, runl Hs (execute_with_limit FL da fuel c) b k = Some (Some (c', r), b', k', l) ->
   exists m d, runl Hs (drive FL m c) b k = Some (Some (d, r), b', k', l) /\ same_but_ei l c' d) /\
  (forall m d r b' k' l, runl Hs (drive FL m c) b k = Some (Some (d, r), b', k', l) ->
   exists fuel c', runl Hs (execute_with_limit FL da fuel c) b k = Some (Some (c', r), b', k', l) /\ same_but_ei l c' d).
Proof.
  intros Q T TS WB RB FL ch absq M BS CK Hs da c b k Hw Hh.
  exact (limit_running FL ch absq (models_ok _ _ _ M) Hs da c b k Hw Hh).
Qed.
(** Halted (with the assertions of z80.rs:494-495, see C39): the interrupt line is looked at twice when the CPU wakes
    up, so the line must not change by being looked at; then everything else is the same. *)
Theorem C22_halted : forall Q T TS WB RB (FL : Flavour Q) (ch : chip T) absq, models FL ch absq ->
  forall BS CK (Hs : host TS WB RB BS CK) da (c : cpu Q) b k, wf c -> halt c = true -> prefix c = None -> last_ei c = false ->
  irq_pure Hs ->
  (forall fuel c' r b' k' l, runl Hs (execute_with_limit FL da fuel c) b k = Some (Some (c', r), b', k', l) ->
   exists m d l', runl Hs (drive FL m c) b k = Some (Some (d, r), b', k', l') /\ unsampled l = unsampled l' /\ same_but_ei l c' d) /\
  (forall m d r b' k' l', runl Hs (drive FL m c) b k = Some (Some (d, r), b', k', l') ->
   exists fuel c' l, runl Hs (execute_with_limit FL da fuel c) b k = Some (Some (c', r), b', k', l) /\
     unsampled l = unsampled l' /\ same_but_ei l c' d).
Proof.
  intros Q T TS WB RB FL ch absq M BS CK Hs da c b k Hw Hh Hp He PU.
  exact (limit_halted FL ch absq (models_ok _ _ _ M) Hs da c b k Hw Hh Hp He PU).
Qed.
(** EI, NOP, then an interrupt (mode 1) in the middle of [execute_with_limit], and HALT. *)
Example C22_ex :
  let m := poke 0x38 [0x76] (poke 0x100 [0xFB; 0; 0] m0) in
  match runl (rig 200 0xFF) (execute_with_limit NMOS true 20 (set_im Mode1 (nm 0x100))) m 0,
        runl (rig 200 0xFF) (drive NMOS 20 (set_im Mode1 (nm 0x100))) m 0 with
  | Some (Some x, _, k, l), Some (Some x', _, k', l') => x = x' /\ k = k' /\ l = l' /\ k = 25 /\ snd x = Some BHalt
  | _, _ => False end.
Proof. vm_compute. repeat split. Qed.
(** A halted CPU: 20 T-states with no interrupt requested. *)
Example C22_ex_halted :
  let c := set_halt true (nm 0x100) in
  match runl (demo 20) (execute_with_limit NMOS true 20 c) m0 0, runl (demo 20) (drive NMOS 20 c) m0 0 with
  | Some (Some x, _, k, l), Some (Some x', _, k', l') => x = x' /\ k = k' /\ k = 20 /\ get_r (fst x) = 5
  | _, _ => False end /\ irq_pure (rig 0 7).
Proof. split; [vm_compute; repeat split|]. intros b t. reflexivity. Qed.
(** The full claim fails: in mode 0 a device supplies EI (0xFB); after the NOP following it [execute_next] has forgotten it,
    [execute_with_limit] has not, and refuses a non-maskable interrupt afterwards. *)
Theorem C22_refuted : exists (m : mem) (c c' d : cpu qstate) b k l, wf c /\ halt c = false /\ irq_pure (rig 10 0xFB) /\
  runl (rig 10 0xFB) (execute_with_limit NMOS true 9 c) m 0 = Some (Some (c', None), b, k, l) /\
  runl (rig 10 0xFB) (drive NMOS 9 c) m 0 = Some (Some (d, None), b, k, l) /\
  is_nmi_allowed d = true /\ is_nmi_allowed c' = false.
Proof.
  destruct (runl (rig 10 0xFB) (execute_with_limit NMOS true 9 (set_iffs true true (nm 0))) m0 0) as [[[[[[c' r]|] b'] k'] l]|] eqn:E;
    [|vm_compute in E; discriminate..].
  destruct (runl (rig 10 0xFB) (drive NMOS 9 (set_iffs true true (nm 0))) m0 0) as [[[[[[d r2]|] b2] k2] l2]|] eqn:E2;
    [|vm_compute in E2; discriminate..].
  exists m0, (set_iffs true true (nm 0)), c', d, b', k', l.
  split; [constructor; cbn; unfold word, byte; lia|]. split; [reflexivity|]. split; [intros b t; reflexivity|].
  rewrite E, E2. clear -E E2. vm_compute in E. vm_compute in E2. injection E as <- <- <- <- <-.
  injection E2 as <- <- <- <- <-. repeat split; reflexivity.
Qed.
Definition C22_all := (@C22_running, @C22_halted, @C22_refuted).
Print Assumptions C22_all.

(** ** C23 *)
(** [fuel] is the number of instructions the loop may execute (halted: the number of tests of the limit). *)
Theorem C23_returns : forall Q T TS WB RB (FL : Flavour Q) (ch : chip T) absq, models FL ch absq ->
  forall BS CK (Hs : host TS WB RB BS CK) now lim, ticking Hs now lim ->
  forall da fuel (c : cpu Q) b k, wf c -> (da = true -> halt c = true -> prefix c = None /\ last_ei c = false) ->
  Z.max 0 (lim - now k) / 4 + (if halt c then 2 else 1) <= Z.of_nat fuel ->
  exists c' r b' k' l, runl Hs (execute_with_limit FL da fuel c) b k = Some (Some (c', r), b', k', l).
Proof.
  intros Q T TS WB RB FL ch absq M BS CK Hs now lim TK da fuel c b k Hw Hd Hn.
  exact (limit_returns FL ch absq (models_ok _ _ _ M) Hs now lim TK da fuel c b k Hw Hd Hn).
Qed.
(** A computer whose clock is an unbounded counter; NOPs reach the bound. *)
Definition slow (lim : Z) : host Z Z Z mem Z :=
  mkHost (fun k => lim <=? k) (fun k _ => (k + 6, k)) (fun k _ n => k + n) (fun k _ => (k + 4, k)) (fun k _ => (k + 3, k))
    (fun k _ => (k + 4, k)) (fun k _ n => k + n) (fun k => k) dflt_read_io dflt_write_io dflt_is_irq dflt_irq_data dflt_reti
    (fun b a _ => (b, b a)) (fun b a _ => (b, b a)) (fun b a _ _ => (b, b a)) (fun m a v _ => mupd m a v) (fun b a => (b, b a)).
Example C23_ex_ticking lim : ticking (slow lim) (fun k => k) lim.
Proof. constructor; cbn; intros; try lia; try discriminate. Qed.
Example C23_ex :
  (runl (slow 17) (execute_with_limit NMOS true 4 (nm 0)) m0 0, runl (slow 17) (execute_with_limit NMOS true 5 (nm 0)) m0 0) =
  (runl (slow 17) (execute_with_limit NMOS true 4 (nm 0)) m0 0, runl (slow 17) (execute_with_limit NMOS true 99 (nm 0)) m0 0) /\
  match runl (slow 17) (execute_with_limit NMOS true 4 (nm 0)) m0 0, runl (slow 17) (execute_with_limit NMOS true 5 (nm 0)) m0 0 with
  | Some (None, _, _, _), Some (Some (c, None), _, k, _) => pc c = 5 /\ k = 20 | _, _ => False end.
Proof. vm_compute. repeat split. Qed.
Print Assumptions C23_returns.

(** ** C39, continued from PropControl.v *)
(** With [execute_with_limit] the assertions hold too, if no device supplies 0xFB when an interrupt is accepted
    and an interrupt line that is on does not go off by being looked at. *)
Theorem C39_with_limit : forall Q T TS WB RB (FL : Flavour Q) (ch : chip T) absq, models FL ch absq ->
  forall q0 (c : cpu Q), reach_calm TS WB RB FL q0 c -> halt c = true -> prefix c = None /\ last_ei c = false.
Proof. intros Q T TS WB RB FL ch absq M q0 c H. exact (proj2 (calm_inv39 FL ch absq (models_ok _ _ _ M) q0 c H)). Qed.
(** The line of a host on which looking has no effect is steady, in the run of any program. *)
Theorem C39_pure_steady : forall TS WB RB BS CK A (Hs : host TS WB RB BS CK) (p : prog TS WB RB A), irq_pure Hs ->
  forall b k x b' k' l, runl Hs p b k = Some (x, b', k', l) -> steady l.
Proof. exact @pure_steady. Qed.
(** Both conditions are needed: C39_refuted for the first; here an interrupt line that is off at every second look. *)
Definition blink : host Z Z Z (mem * bool) Z :=
  mkHost (fun k => 9 <=? k) (fun k _ => (k + 6, k)) (fun k _ n => k + n) (fun k _ => (k + 4, k)) (fun k _ => (k + 3, k))
    (fun k _ => (k + 4, k)) (fun k _ n => k + n) (fun k => k) dflt_read_io dflt_write_io
    (fun b _ => ((fst b, negb (snd b)), negb (snd b))) dflt_irq_data dflt_reti
    (fun b a _ => (b, fst b a)) (fun b a _ => (b, fst b a)) (fun b a _ _ => (b, fst b a)) (fun b a v _ => (mupd (fst b) a v, snd b))
    (fun b a => (b, fst b a)).
Theorem C39_refuted_line : exists c, reach Z Z Z NMOS q_default true c /\ halt c = true /\ prefix c = Some Xdd /\
  forall TS WB RB fuel, execute_with_limit (TS:=TS) (WB:=WB) (RB:=RB) NMOS true fuel c = Stuck.
Proof.
  destruct (runl (demo 0) (execute_instruction NMOS false 0xFB (cpu_new NMOS q_default)) m0 0) as [[[[[c1 x1] b1] k1] l1]|] eqn:E1;
    [|vm_compute in E1; discriminate].
  destruct (runl (demo 0) (execute_instruction NMOS false 0x76 c1) m0 0) as [[[[[c2 x2] b2] k2] l2]|] eqn:E2.
  2: { vm_compute in E1. injection E1 as <- <- <- <- <-. vm_compute in E2. discriminate. }
  destruct (runl blink (execute_with_limit NMOS false 10 c2) (fun _ => 0xDD, false) 0) as [[[[[[c3 x3]|] b3] k3] l3]|] eqn:E3.
  2, 3: vm_compute in E1; injection E1 as <- <- <- <- <-; vm_compute in E2; injection E2 as <- <- <- <- <-; vm_compute in E3; discriminate.
  exists c3. split.
  - refine (r_limit _ _ _ _ _ _ 10 _ _ _ blink (fun _ => 0xDD, false) 0 c3 x3 b3 k3 l3 eq_refl _ E3).
    refine (r_exec _ _ _ _ _ _ false 0x76 _ _ _ (demo 0) m0 0 c2 x2 b2 k2 l2 _ _ E2); [unfold byte; lia|].
    refine (r_exec _ _ _ _ _ _ false 0xFB _ _ _ (demo 0) m0 0 c1 x1 b1 k1 l1 _ (r_reset _ _ _ _ _ _) E1). unfold byte; lia.
  - vm_compute in E1. injection E1 as <- <- <- <- <-. vm_compute in E2. injection E2 as <- <- <- <- <-.
    vm_compute in E3. injection E3 as <- <- <- <- <-. repeat split.
Qed.
Example C39_ex_limit : exists c, reach_calm Z Z Z NMOS q_default c /\ halt c = true /\ pc c = 2.
Proof.
  destruct (runl (demo 99) (execute_with_limit NMOS false 10 (cpu_new NMOS q_default)) (poke 2 [0x76] m0) 0)
    as [[[[[[c' x]|] b'] k'] l]|] eqn:E; [|vm_compute in E; discriminate..].
  exists c'. split.
  - refine (rc_limit _ _ _ _ _ 10 _ _ _ (demo 99) (poke 2 [0x76] m0) 0 c' x b' k' l _ _ (rc_reset _ _ _ _ _) E).
    + refine (C39_pure_steady _ _ _ _ _ _ (demo 99) _ _ _ _ _ _ _ _ E). intros b t. reflexivity.
    + vm_compute in E. injection E as <- <- <- <- <-. rewrite Exists_exists. intros (e & H & F).
      cbn in H. repeat (destruct H as [<-|H]; [exact F|]). exact H.
  - vm_compute in E. injection E as <- <- <- <- <-. split; reflexivity.
Qed.
Definition C39_more := (@C39_with_limit, @C39_pure_steady, C39_refuted_line).
Print Assumptions C39_more.
