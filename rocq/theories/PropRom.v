(** C58. *)
From Coq Require Import ZArith Bool List Lia.
From Verif Require Import Base Parse Cpu Flavours Prog Trace Exec Range Clock Demo RalMemory RalBus SpecRal RalBusProofs SpecState SpecIsa IsaLink IsaRun Steps RomImage SpecRom RomHoare RomRun RomAlone.
Import ListNotations.
Open Scope Z_scope.

(** RST 10h in the kernel's ROM: the character in A goes to the port, or waits for its turn; when another is waiting already it is refused
    or the kernel waits in HALT, as the carry tells.  All registers of the caller are kept but F and HL'. *)
Theorem C58_put : forall Q T D (FL : Flavour Q) (ch : SpecIsa.chip T) absq, models FL ch absq ->
  forall (dv : dev D) limit kb l0 mm c d k, kernel_mem kb l0 mm -> wf c -> let a := abs absq c in let m := kview kb (rev l0) in
  aPC a = 0x10 -> aPX a = None -> aHALT a = false -> 0x4000 <= aSP a <= 0xFFFE ->
  comes FL absq dv limit kb l0 mm c d k (put_post (word_at m (aSP a)) ((aSP a + 2) mod 0x10000) (aBC a) (aDE a) (aHL a) a m).
Proof. intros Q T D FL ch absq M dv limit kb l0 mm c d k KM W. exact (put_runs FL ch absq (models_ok _ _ _ M) dv limit kb l0 mm c d k KM W). Qed.
(** Back from the interrupt that ended the HALT it goes on in the same way, for the registers of the caller. *)
Theorem C58_put_woken : forall Q T D (FL : Flavour Q) (ch : SpecIsa.chip T) absq, models FL ch absq ->
  forall (dv : dev D) limit kb l0 mm c d k, kernel_mem kb l0 mm -> wf c -> let a := abs absq c in let m := kview kb (rev l0) in
  aPC a = 0x18D -> aHL a = 0x2005 -> aPX a = None -> aHALT a = false -> 0x4000 <= aSP a <= 0xFFFE ->
  comes FL absq dv limit kb l0 mm c d k (put_post (word_at m (aSP a)) ((aSP a + 2) mod 0x10000) (aBC' a) (aDE' a) (aHL' a) a m).
Proof. intros Q T D FL ch absq M dv limit kb l0 mm c d k KM W. exact (put_again_runs FL ch absq (models_ok _ _ _ M) dv limit kb l0 mm c d k KM W). Qed.
(** Interrupts are off before the look at the flags, nothing having happened, and none can come from there to the end, be it RET or HALT: no interrupt is missed. *)
Theorem C58_put_off : forall Q T D (FL : Flavour Q) (ch : SpecIsa.chip T) absq, models FL ch absq ->
  forall (dv : dev D) limit kb l0 mm c d k, kernel_mem kb l0 mm -> wf c -> let a := abs absq c in let m := kview kb (rev l0) in
  aPX a = None -> aHALT a = false -> aPC a = 0x10 ->
  comes FL absq dv limit kb l0 mm c d k (fun a' m' o => off 0x179 a m a' m' o /\ aA a' = aA a /\ aHL a' = 0x2005 /\ aside (aBC a) (aDE a) (aHL a) a').
Proof. intros Q T D FL ch absq M dv limit kb l0 mm c d k KM W. exact (put_off_runs FL ch absq (models_ok _ _ _ M) dv limit kb l0 mm c d k KM W). Qed.
Theorem C58_put_woken_off : forall Q T D (FL : Flavour Q) (ch : SpecIsa.chip T) absq, models FL ch absq ->
  forall (dv : dev D) limit kb l0 mm c d k, kernel_mem kb l0 mm -> wf c -> let a := abs absq c in let m := kview kb (rev l0) in
  aPX a = None -> aHALT a = false -> aPC a = 0x18D -> aHL a = 0x2005 ->
  comes FL absq dv limit kb l0 mm c d k (fun a' m' o => off 0x179 a m a' m' o /\ aA a' = aA a /\ aHL a' = 0x2005 /\ aside (aBC' a) (aDE' a) (aHL' a) a').
Proof. intros Q T D FL ch absq M dv limit kb l0 mm c d k KM W. exact (put_again_off_runs FL ch absq (models_ok _ _ _ M) dv limit kb l0 mm c d k KM W). Qed.
Theorem C58_put_alone : forall Q T D (FL : Flavour Q) (ch : SpecIsa.chip T) absq, models FL ch absq ->
  forall (dv : dev D) limit kb l0 mm c d k, kernel_mem kb l0 mm -> wf c -> let a := abs absq c in let m := kview kb (rev l0) in
  aPC a = 0x179 -> aHL a = 0x2005 -> aIFF1 a = false -> aPX a = None -> aHALT a = false ->
  comes_alone FL absq dv limit kb l0 mm c d k (put_post 0x188 (aSP a) (aBC' a) (aDE' a) (aHL' a) a m).
Proof. intros Q T D FL ch absq M dv limit kb l0 mm c d k KM W. exact (put_alone_runs FL ch absq (models_ok _ _ _ M) dv limit kb l0 mm c d k KM W). Qed.
(** RST 08h: the character that has come, and the next one is read from the port at once if there is one; or none, or waiting in HALT. *)
Theorem C58_get : forall Q T D (FL : Flavour Q) (ch : SpecIsa.chip T) absq, models FL ch absq ->
  forall (dv : dev D) limit kb l0 mm c d k, kernel_mem kb l0 mm -> wf c -> let a := abs absq c in let m := kview kb (rev l0) in
  aPC a = 0x08 -> aPX a = None -> aHALT a = false -> 0x4002 <= aSP a <= 0x4000 + kb * 1024 -> aSP a <= 0xFFFE ->
  comes FL absq dv limit kb l0 mm c d k (get_post (word_at m (aSP a)) ((aSP a + 2) mod 0x10000) (aBC a) (aDE a) (aHL a) a m).
Proof. intros Q T D FL ch absq M dv limit kb l0 mm c d k KM W. exact (get_runs FL ch absq (models_ok _ _ _ M) dv limit kb l0 mm c d k KM W). Qed.
Theorem C58_get_woken : forall Q T D (FL : Flavour Q) (ch : SpecIsa.chip T) absq, models FL ch absq ->
  forall (dv : dev D) limit kb l0 mm c d k, kernel_mem kb l0 mm -> wf c -> let a := abs absq c in let m := kview kb (rev l0) in
  aPC a = 0x153 -> aHL a = 0x2005 -> aPX a = None -> aHALT a = false -> 0x4002 <= aSP a <= 0x4000 + kb * 1024 -> aSP a <= 0xFFFE ->
  comes FL absq dv limit kb l0 mm c d k (get_post (word_at m (aSP a)) ((aSP a + 2) mod 0x10000) (aBC' a) (aDE' a) (aHL' a) a m).
Proof. intros Q T D FL ch absq M dv limit kb l0 mm c d k KM W. exact (get_again_runs FL ch absq (models_ok _ _ _ M) dv limit kb l0 mm c d k KM W). Qed.
Theorem C58_get_off : forall Q T D (FL : Flavour Q) (ch : SpecIsa.chip T) absq, models FL ch absq ->
  forall (dv : dev D) limit kb l0 mm c d k, kernel_mem kb l0 mm -> wf c -> let a := abs absq c in let m := kview kb (rev l0) in
  aPX a = None -> aHALT a = false -> aPC a = 0x08 ->
  comes FL absq dv limit kb l0 mm c d k (fun a' m' o => off 0x13F a m a' m' o /\ aA a' = aA a /\ aHL a' = 0x2005 /\ aside (aBC a) (aDE a) (aHL a) a').
Proof. intros Q T D FL ch absq M dv limit kb l0 mm c d k KM W. exact (get_off_runs FL ch absq (models_ok _ _ _ M) dv limit kb l0 mm c d k KM W). Qed.
Theorem C58_get_woken_off : forall Q T D (FL : Flavour Q) (ch : SpecIsa.chip T) absq, models FL ch absq ->
  forall (dv : dev D) limit kb l0 mm c d k, kernel_mem kb l0 mm -> wf c -> let a := abs absq c in let m := kview kb (rev l0) in
  aPX a = None -> aHALT a = false -> aPC a = 0x153 -> aHL a = 0x2005 ->
  comes FL absq dv limit kb l0 mm c d k (fun a' m' o => off 0x13F a m a' m' o /\ aA a' = aA a /\ aHL a' = 0x2005 /\ aside (aBC' a) (aDE' a) (aHL' a) a').
Proof. intros Q T D FL ch absq M dv limit kb l0 mm c d k KM W. exact (get_again_off_runs FL ch absq (models_ok _ _ _ M) dv limit kb l0 mm c d k KM W). Qed.
Theorem C58_get_alone : forall Q T D (FL : Flavour Q) (ch : SpecIsa.chip T) absq, models FL ch absq ->
  forall (dv : dev D) limit kb l0 mm c d k, kernel_mem kb l0 mm -> wf c -> let a := abs absq c in let m := kview kb (rev l0) in
  aPC a = 0x13F -> aHL a = 0x2005 -> aIFF1 a = false -> aPX a = None -> aHALT a = false -> 0x4002 <= aSP a <= 0x4000 + kb * 1024 ->
  comes_alone FL absq dv limit kb l0 mm c d k (get_post 0x14E (aSP a) (aBC' a) (aDE' a) (aHL' a) a m).
Proof. intros Q T D FL ch absq M dv limit kb l0 mm c d k KM W. exact (get_alone_runs FL ch absq (models_ok _ _ _ M) dv limit kb l0 mm c d k KM W). Qed.
(** An interrupt at any instruction of any program, or in HALT: it is served as its vector tells and the program goes on with all its
    registers, unless another interrupt comes meanwhile. *)
Theorem C58_interrupt : forall Q T D (FL : Flavour Q) (ch : SpecIsa.chip T) absq, models FL ch absq ->
  forall (dv : dev D) limit kb l0 mm c d k, kernel_mem kb l0 mm -> wf c -> let a := abs absq c in let m := kview kb (rev l0) in
  aIFF1 a = true -> aEI a = false -> aPX a = None -> aIM a = Mode2 -> aI a = 1 -> 0x4006 <= aSP a <= 0x4000 + kb * 1024 ->
  answered FL absq dv limit kb l0 mm c d k (irq_post a m).
Proof. intros Q T D FL ch absq M dv limit kb l0 mm c d k KM W. exact (irq_runs FL ch absq (models_ok _ _ _ M) dv limit kb l0 mm c d k KM W). Qed.
(** And no other can come before the service is done: the clock counts and goes back to the program, the port has only to give back A and
    F when interrupts are on again. *)
Theorem C58_interrupt_alone : forall Q T D (FL : Flavour Q) (ch : SpecIsa.chip T) absq, models FL ch absq ->
  forall (dv : dev D) limit kb l0 mm c d k, kernel_mem kb l0 mm -> wf c -> let a := abs absq c in let m := kview kb (rev l0) in
  aIFF1 a = true -> aEI a = false -> aPX a = None -> aIM a = Mode2 -> aI a = 1 -> 0x4006 <= aSP a <= 0x4000 + kb * 1024 ->
  answered_alone FL absq dv limit kb l0 mm c d k (irq_first a m).
Proof. intros Q T D FL ch absq M dv limit kb l0 mm c d k KM W. exact (irq_first_runs FL ch absq (models_ok _ _ _ M) dv limit kb l0 mm c d k KM W). Qed.
Definition C58_all := (@C58_put, @C58_put_woken, @C58_put_off, @C58_put_woken_off, @C58_put_alone, @C58_get_off, @C58_get_woken_off, @C58_get, @C58_get_woken, @C58_get_alone, @C58_interrupt, @C58_interrupt_alone).
Print Assumptions C58_all.
(** So characters go to the port in the order in which they were accepted, and none is given to it before the last has gone. *)
Theorem C58_order : forall c accepted tr c', outs c accepted tr c' -> (waiting c <> None -> busy c = true) ->
  pending c ++ accepted = given tr ++ pending c' /\ spaced (busy c) tr /\ (waiting c' <> None -> busy c' = true).
Proof. intros c accepted tr c' H I. exact (conj (outs_order c accepted tr c' H) (outs_spaced c accepted tr c' H I)). Qed.
Print Assumptions C58_order.

(** A terminal that is done with a character after three looks at its line, and holds what it has got. *)
Definition tty := (list Z * nat)%type.
Definition tty_dev : dev tty := mkDev (fun _ d => Some d) (fun _ d => Some d) (fun _ d => Some d) (fun _ d => Some d)
    (fun _ _ d => Some (d, (255, None))) (fun p v _ '(l, n) => Some (if p mod 256 =? 10 then (l ++ [v], 3%nat) else (l, n), (None, None)))
    (fun _ '(l, n) => Some (match n with 0 => (l, 0, false) | 1 => (l, 1, true) | Datatypes.S n => (l, n, false) end%nat)) (fun _ _ '(l, n) => Some ((l, 0%nat), (10, None))) (fun _ _ d => Some (d, None)).
(** At 4000h: LD A,'A'; AND A; RST 10h; INC A; JR to the RST. *)
Definition chatty : list mop := map (fun '(a, v) => MWrite a v) [(0x4000, 0x3E); (0x4001, 65); (0x4002, 0xA7); (0x4003, 0xD7); (0x4004, 0x3C); (0x4005, 0x18); (0x4006, 0xFC)].
Definition chat (n : nat) : option (list Z * Z * Z) :=
  match mem_new kernel 16 with
  | Some m0 => match mem_run chatty m0 with
    | Some (m, _) => let c := set_i 1 (set_im Mode2 (set_sp 0x8000 (nm 0x4000))) in
      match runl (ral_host 255 124 tty_dev 1000000) (steps NMOS n (set_iffs true true c)) (Some (m, ([], 0%nat))) (mkTClock 0 1000000) with
      | Some (c', Some (m', (l, _)), _, _) => Some (l, get_acc c', sp c')
      | _ => None
      end
    | None => None
    end
  | None => None
  end.
Example C58_example_allowed : all_allowed [] chatty.
Proof. cbn. repeat (split; try (intuition discriminate)). Qed.
Example C58_example : exists mm, kernel_mem 16 chatty mm /\ chat 120 = Some ([65; 66; 67; 68], 69, 0x7FFE).
Proof.
  destruct (mem_new kernel 16) as [m0|] eqn:E0; [|vm_compute in E0; discriminate E0].
  destruct (further kernel 16 m0 m0 [] [] ltac:(discriminate) E0 I eq_refl chatty C58_example_allowed) as (mm & E1).
  exists mm. split; [|vm_compute; reflexivity]. exists m0, (answers kernel 16 [] chatty). split; [discriminate|]. split; [exact E0|].
  split; [exact C58_example_allowed|]. split; [exact E1|]. repeat constructor; discriminate.
Qed.
