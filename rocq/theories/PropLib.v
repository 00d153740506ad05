(** C61. *)
From Coq Require Import ZArith Bool List Lia.
From Verif Require Import Base Parse Cpu Flavours Prog Trace Exec Range Clock Demo RalMemory RalBus SpecRal RalBusProofs SpecState SpecIsa IsaLink IsaRun Steps RomImage SpecRom RomHoare RomRun SpecLib RomLibRun RomAlone PropRom.
Import ListNotations.
Open Scope Z_scope.

(** Numbers: D in at most three digits, HL in at most five, with E for the zeros in front; [says] is the sequence of the calls of RST 10h. *)
Theorem C61_number8 : forall Q T (FL : Flavour Q) (ch : SpecIsa.chip T) absq, models FL ch absq ->
  forall kb l0 mm c, kernel_mem kb l0 mm -> wf c -> let a := abs absq c in let m := kview kb (rev l0) in
  called 16 a -> room 2 kb a -> says FL absq kb (decimal8 (aDE a mod 256) (aDE a / 256)) (back a m) l0 mm c.
Proof. intros Q T FL ch absq M kb l0 mm c KM W a m CA R. exact (proj1 (printing FL ch absq (models_ok _ _ _ M) kb l0 mm c KM W 0 16 CA R) eq_refl). Qed.
Theorem C61_number16 : forall Q T (FL : Flavour Q) (ch : SpecIsa.chip T) absq, models FL ch absq ->
  forall kb l0 mm c, kernel_mem kb l0 mm -> wf c -> let a := abs absq c in let m := kview kb (rev l0) in
  called 18 a -> room 2 kb a -> says FL absq kb (decimal16 (aDE a mod 256) (aHL a)) (back a m) l0 mm c.
Proof. intros Q T FL ch absq M kb l0 mm c KM W a m CA R. exact (proj1 (proj2 (printing FL ch absq (models_ok _ _ _ M) kb l0 mm c KM W 0 18 CA R)) eq_refl). Qed.
(** C, as often as B tells. *)
Theorem C61_repeat : forall Q T (FL : Flavour Q) (ch : SpecIsa.chip T) absq, models FL ch absq ->
  forall kb l0 mm c, kernel_mem kb l0 mm -> wf c -> let a := abs absq c in let m := kview kb (rev l0) in
  called 10 a -> room 2 kb a -> says FL absq kb (repeat (aBC a mod 256) (times (aBC a / 256))) (back a m) l0 mm c.
Proof. intros Q T FL ch absq M kb l0 mm c KM W a m CA R. exact (proj1 (proj2 (proj2 (printing FL ch absq (models_ok _ _ _ M) kb l0 mm c KM W 0 10 CA R))) eq_refl). Qed.
(** The text at HL up to the character in E, or of the length in BC. *)
Theorem C61_text_tok : forall Q T (FL : Flavour Q) (ch : SpecIsa.chip T) absq, models FL ch absq ->
  forall kb l0 mm c, kernel_mem kb l0 mm -> wf c -> let a := abs absq c in let m := kview kb (rev l0) in
  called 12 a -> room 2 kb a -> forall n, aHL a + Z.of_nat n < 0x10000 -> (forall y, aHL a <= y <= aHL a + Z.of_nat n -> ~ kernels 80 (aSP a) y) ->
  upto_tok m (aHL a) (aDE a mod 256) n -> says FL absq kb (chars m (aHL a) n) (back a m) l0 mm c.
Proof. intros Q T FL ch absq M kb l0 mm c KM W a m CA R n. exact (proj1 (proj2 (proj2 (proj2 (printing FL ch absq (models_ok _ _ _ M) kb l0 mm c KM W n 12 CA R)))) eq_refl). Qed.
Theorem C61_text : forall Q T (FL : Flavour Q) (ch : SpecIsa.chip T) absq, models FL ch absq ->
  forall kb l0 mm c, kernel_mem kb l0 mm -> wf c -> let a := abs absq c in let m := kview kb (rev l0) in
  called 14 a -> room 2 kb a -> aHL a + aBC a <= 0x10000 -> (forall y, aHL a <= y < aHL a + aBC a -> ~ kernels 80 (aSP a) y) ->
  says FL absq kb (chars m (aHL a) (Z.to_nat (aBC a))) (back a m) l0 mm c.
Proof. intros Q T FL ch absq M kb l0 mm c KM W a m CA R. exact (proj2 (proj2 (proj2 (proj2 (printing FL ch absq (models_ok _ _ _ M) kb l0 mm c KM W 0 14 CA R)))) eq_refl). Qed.
(** The clock of 32 bits in HL and DE; the two reads are never torn by an interrupt. *)
Theorem C61_frames : forall Q T D (FL : Flavour Q) (ch : SpecIsa.chip T) absq, models FL ch absq ->
  forall (dv : dev D) limit kb l0 mm c d k, kernel_mem kb l0 mm -> wf c -> let a := abs absq c in let m := kview kb (rev l0) in
  called 26 a -> comes FL absq dv limit kb l0 mm c d k (frames_post a m).
Proof. intros Q T D FL ch absq M dv limit kb l0 mm c d k KM W. exact (frames_runs FL ch absq (models_ok _ _ _ M) dv limit kb l0 mm c d k KM W). Qed.
Theorem C61_frames_off : forall Q T D (FL : Flavour Q) (ch : SpecIsa.chip T) absq, models FL ch absq ->
  forall (dv : dev D) limit kb l0 mm c d k, kernel_mem kb l0 mm -> wf c -> let a := abs absq c in let m := kview kb (rev l0) in
  aPX a = None -> aHALT a = false -> aPC a = 0x28 -> aA a = 26 ->
  comes FL absq dv limit kb l0 mm c d k (fun a' m' o => off 0x2C3 a m a' m' o /\ aBC a' = aBC a /\ aDE a' = aDE a /\ aHL a' = aHL a).
Proof. intros Q T D FL ch absq M dv limit kb l0 mm c d k KM W. exact (frames_off_runs FL ch absq (models_ok _ _ _ M) dv limit kb l0 mm c d k KM W). Qed.
Theorem C61_frames_alone : forall Q T D (FL : Flavour Q) (ch : SpecIsa.chip T) absq, models FL ch absq ->
  forall (dv : dev D) limit kb l0 mm c d k, kernel_mem kb l0 mm -> wf c -> let a := abs absq c in let m := kview kb (rev l0) in
  aPC a = 0x2C3 -> aIFF1 a = false -> aPX a = None -> aHALT a = false -> 0x4000 <= aSP a <= 0xFFFD -> comes_alone FL absq dv limit kb l0 mm c d k (frames_post a m).
Proof. intros Q T D FL ch absq M dv limit kb l0 mm c d k KM W. exact (frames_alone_runs FL ch absq (models_ok _ _ _ M) dv limit kb l0 mm c d k KM W). Qed.
(** A look at the character that has come, without taking it; or waiting for one. *)
Theorem C61_peek : forall Q T D (FL : Flavour Q) (ch : SpecIsa.chip T) absq, models FL ch absq ->
  forall (dv : dev D) limit kb l0 mm c d k, kernel_mem kb l0 mm -> wf c -> let a := abs absq c in let m := kview kb (rev l0) in
  called 4 a -> comes FL absq dv limit kb l0 mm c d k (fun a' m' o => peek_post a m a' m' o (returns a m a') (aBC a) (aDE a) (aHL a)).
Proof. intros Q T D FL ch absq M dv limit kb l0 mm c d k KM W. exact (peek_runs FL ch absq (models_ok _ _ _ M) dv limit kb l0 mm c d k KM W). Qed.
Theorem C61_peek_woken : forall Q T D (FL : Flavour Q) (ch : SpecIsa.chip T) absq, models FL ch absq ->
  forall (dv : dev D) limit kb l0 mm c d k, kernel_mem kb l0 mm -> wf c -> let a := abs absq c in let m := kview kb (rev l0) in
  woken 0x1C3 0x2005 a -> comes FL absq dv limit kb l0 mm c d k (fun a' m' o => peek_post a m a' m' o (returns a m a') (aBC' a) (aDE' a) (aHL' a)).
Proof. intros Q T D FL ch absq M dv limit kb l0 mm c d k KM W. exact (peek_again_runs FL ch absq (models_ok _ _ _ M) dv limit kb l0 mm c d k KM W). Qed.
(** Until no character waits for the port. *)
Theorem C61_flush : forall Q T D (FL : Flavour Q) (ch : SpecIsa.chip T) absq, models FL ch absq ->
  forall (dv : dev D) limit kb l0 mm c d k, kernel_mem kb l0 mm -> wf c -> let a := abs absq c in let m := kview kb (rev l0) in
  called 8 a -> comes FL absq dv limit kb l0 mm c d k (flush_post a m).
Proof. intros Q T D FL ch absq M dv limit kb l0 mm c d k KM W. exact (flush_runs FL ch absq (models_ok _ _ _ M) dv limit kb l0 mm c d k KM W). Qed.
Theorem C61_flush_woken : forall Q T D (FL : Flavour Q) (ch : SpecIsa.chip T) absq, models FL ch absq ->
  forall (dv : dev D) limit kb l0 mm c d k, kernel_mem kb l0 mm -> wf c -> let a := abs absq c in let m := kview kb (rev l0) in
  woken 0x1ED (aHL a) a -> comes FL absq dv limit kb l0 mm c d k (flush_post a m).
Proof. intros Q T D FL ch absq M dv limit kb l0 mm c d k KM W. exact (flush_again_runs FL ch absq (models_ok _ _ _ M) dv limit kb l0 mm c d k KM W). Qed.
(** BC changes of the clock, or a character if that comes first. *)
Theorem C61_wait : forall Q T D (FL : Flavour Q) (ch : SpecIsa.chip T) absq, models FL ch absq ->
  forall (dv : dev D) limit kb l0 mm c d k, kernel_mem kb l0 mm -> wf c -> let a := abs absq c in let m := kview kb (rev l0) in
  called 0 a -> comes FL absq dv limit kb l0 mm c d k (fun a' m' o => wait_post a m a' m' o (aBC a) (aDE a) (aHL a)).
Proof. intros Q T D FL ch absq M dv limit kb l0 mm c d k KM W. exact (wait_runs FL ch absq (models_ok _ _ _ M) dv limit kb l0 mm c d k KM W). Qed.
Theorem C61_wait_woken : forall Q T D (FL : Flavour Q) (ch : SpecIsa.chip T) absq, models FL ch absq ->
  forall (dv : dev D) limit kb l0 mm c d k, kernel_mem kb l0 mm -> wf c -> let a := abs absq c in let m := kview kb (rev l0) in
  woken 0x19D 0x2000 a -> comes FL absq dv limit kb l0 mm c d k (fun a' m' o => wait_round a m a' m' o (returns a m a')).
Proof. intros Q T D FL ch absq M dv limit kb l0 mm c d k KM W. exact (wait_again_runs FL ch absq (models_ok _ _ _ M) dv limit kb l0 mm c d k KM W). Qed.
Theorem C61_timeout : forall Q T D (FL : Flavour Q) (ch : SpecIsa.chip T) absq, models FL ch absq ->
  forall (dv : dev D) limit kb l0 mm c d k, kernel_mem kb l0 mm -> wf c -> let a := abs absq c in let m := kview kb (rev l0) in
  called 6 a -> comes FL absq dv limit kb l0 mm c d k (fun a' m' o => timeout_post a m a' m' o (returns a m a') (aBC a) (aDE a) (aHL a)).
Proof. intros Q T D FL ch absq M dv limit kb l0 mm c d k KM W. exact (timeout_runs FL ch absq (models_ok _ _ _ M) dv limit kb l0 mm c d k KM W). Qed.
Theorem C61_timeout_woken : forall Q T D (FL : Flavour Q) (ch : SpecIsa.chip T) absq, models FL ch absq ->
  forall (dv : dev D) limit kb l0 mm c d k, kernel_mem kb l0 mm -> wf c -> let a := abs absq c in let m := kview kb (rev l0) in
  woken 0x1D4 0x2000 a -> comes FL absq dv limit kb l0 mm c d k (fun a' m' o => timeout_round a m a' m' o (returns a m a')).
Proof. intros Q T D FL ch absq M dv limit kb l0 mm c d k KM W. exact (timeout_again_runs FL ch absq (models_ok _ _ _ M) dv limit kb l0 mm c d k KM W). Qed.
(** In all of these interrupts are off from before the look at the flags or the clock, nothing having happened, to the RET or HALT: none is missed. *)
Theorem C61_peek_off : forall Q T D (FL : Flavour Q) (ch : SpecIsa.chip T) absq, models FL ch absq ->
  forall (dv : dev D) limit kb l0 mm c d k, kernel_mem kb l0 mm -> wf c -> let a := abs absq c in let m := kview kb (rev l0) in
  aPX a = None -> aHALT a = false -> aPC a = 0x28 -> aA a = 4 ->
  comes FL absq dv limit kb l0 mm c d k (fun a' m' o => off 0x1B6 a m a' m' o /\ aHL a' = 0x2005 /\ aside (aBC a) (aDE a) (aHL a) a').
Proof. intros Q T D FL ch absq M dv limit kb l0 mm c d k KM W a m PX NH. exact (lib_off_runs FL ch absq (models_ok _ _ _ M) dv limit kb l0 mm c d k KM W PX NH 4 0x1B2 0x1B6 0x2005 ltac:(cbn; tauto)). Qed.
Theorem C61_peek_woken_off : forall Q T D (FL : Flavour Q) (ch : SpecIsa.chip T) absq, models FL ch absq ->
  forall (dv : dev D) limit kb l0 mm c d k, kernel_mem kb l0 mm -> wf c -> let a := abs absq c in let m := kview kb (rev l0) in
  aPX a = None -> aHALT a = false -> aPC a = 0x1C3 -> aHL a = 0x2005 ->
  comes FL absq dv limit kb l0 mm c d k (fun a' m' o => off 0x1B6 a m a' m' o /\ aA a' = aA a /\ aHL a' = 0x2005 /\ aside (aBC' a) (aDE' a) (aHL' a) a').
Proof. intros Q T D FL ch absq M dv limit kb l0 mm c d k KM W a m PX NH. exact (lib_again_off_runs FL ch absq (models_ok _ _ _ M) dv limit kb l0 mm c d k KM W PX NH 0x1C3 0x1B6 0x2005 ltac:(cbn; tauto)). Qed.
Theorem C61_peek_alone : forall Q T D (FL : Flavour Q) (ch : SpecIsa.chip T) absq, models FL ch absq ->
  forall (dv : dev D) limit kb l0 mm c d k, kernel_mem kb l0 mm -> wf c -> let a := abs absq c in let m := kview kb (rev l0) in
  aPX a = None -> aHALT a = false -> aIFF1 a = false -> aPC a = 0x1B6 -> aHL a = 0x2005 ->
  comes_alone FL absq dv limit kb l0 mm c d k (fun a' m' o => peek_post a m a' m' o (at_ret a a' 0x1BE) (aBC' a) (aDE' a) (aHL' a)).
Proof. intros Q T D FL ch absq M dv limit kb l0 mm c d k KM W. exact (peek_alone_runs FL ch absq (models_ok _ _ _ M) dv limit kb l0 mm c d k KM W). Qed.
Theorem C61_flush_off : forall Q T D (FL : Flavour Q) (ch : SpecIsa.chip T) absq, models FL ch absq ->
  forall (dv : dev D) limit kb l0 mm c d k, kernel_mem kb l0 mm -> wf c -> let a := abs absq c in let m := kview kb (rev l0) in
  aPX a = None -> aHALT a = false -> aPC a = 0x28 -> aA a = 8 ->
  comes FL absq dv limit kb l0 mm c d k (fun a' m' o => off 0x1E4 a m a' m' o /\ aBC a' = aBC a /\ aDE a' = aDE a /\ aHL a' = aHL a).
Proof. intros Q T D FL ch absq M dv limit kb l0 mm c d k KM W. exact (flush_off_runs FL ch absq (models_ok _ _ _ M) dv limit kb l0 mm c d k KM W). Qed.
Theorem C61_flush_woken_off : forall Q T D (FL : Flavour Q) (ch : SpecIsa.chip T) absq, models FL ch absq ->
  forall (dv : dev D) limit kb l0 mm c d k, kernel_mem kb l0 mm -> wf c -> let a := abs absq c in let m := kview kb (rev l0) in
  aPX a = None -> aHALT a = false -> aPC a = 0x1ED ->
  comes FL absq dv limit kb l0 mm c d k (fun a' m' o => off 0x1E4 a m a' m' o /\ aBC a' = aBC a /\ aDE a' = aDE a /\ aHL a' = aHL a).
Proof. intros Q T D FL ch absq M dv limit kb l0 mm c d k KM W. exact (flush_again_off_runs FL ch absq (models_ok _ _ _ M) dv limit kb l0 mm c d k KM W). Qed.
Theorem C61_flush_alone : forall Q T D (FL : Flavour Q) (ch : SpecIsa.chip T) absq, models FL ch absq ->
  forall (dv : dev D) limit kb l0 mm c d k, kernel_mem kb l0 mm -> wf c -> let a := abs absq c in let m := kview kb (rev l0) in
  aPX a = None -> aHALT a = false -> aIFF1 a = false -> aPC a = 0x1E4 -> 0x4000 <= aSP a <= 0xFFFD ->
  comes_alone FL absq dv limit kb l0 mm c d k (flush_post a m).
Proof. intros Q T D FL ch absq M dv limit kb l0 mm c d k KM W. exact (flush_alone_runs FL ch absq (models_ok _ _ _ M) dv limit kb l0 mm c d k KM W). Qed.
Theorem C61_wait_off : forall Q T D (FL : Flavour Q) (ch : SpecIsa.chip T) absq, models FL ch absq ->
  forall (dv : dev D) limit kb l0 mm c d k, kernel_mem kb l0 mm -> wf c -> let a := abs absq c in let m := kview kb (rev l0) in
  aPX a = None -> aHALT a = false -> aPC a = 0x28 -> aA a = 0 ->
  comes FL absq dv limit kb l0 mm c d k (fun a' m' o => off 0x19A a m a' m' o /\ aHL a' = 0x2000 /\ aside (aBC a) (aDE a) (aHL a) a').
Proof. intros Q T D FL ch absq M dv limit kb l0 mm c d k KM W a m PX NH. exact (lib_off_runs FL ch absq (models_ok _ _ _ M) dv limit kb l0 mm c d k KM W PX NH 0 0x196 0x19A 0x2000 ltac:(cbn; tauto)). Qed.
Theorem C61_wait_alone : forall Q T D (FL : Flavour Q) (ch : SpecIsa.chip T) absq, models FL ch absq ->
  forall (dv : dev D) limit kb l0 mm c d k, kernel_mem kb l0 mm -> wf c -> let a := abs absq c in let m := kview kb (rev l0) in
  aPX a = None -> aHALT a = false -> aIFF1 a = false -> aPC a = 0x19A -> aHL a = 0x2000 ->
  comes_alone FL absq dv limit kb l0 mm c d k (fun a' m' o => wait_post a m a' m' o (aBC' a) (aDE' a) (aHL' a)).
Proof. intros Q T D FL ch absq M dv limit kb l0 mm c d k KM W. exact (wait_alone_runs FL ch absq (models_ok _ _ _ M) dv limit kb l0 mm c d k KM W). Qed.
Theorem C61_wait_woken_off : forall Q T D (FL : Flavour Q) (ch : SpecIsa.chip T) absq, models FL ch absq ->
  forall (dv : dev D) limit kb l0 mm c d k, kernel_mem kb l0 mm -> wf c -> let a := abs absq c in let m := kview kb (rev l0) in
  aPX a = None -> aHALT a = false -> aPC a = 0x19D -> aHL a = 0x2000 ->
  comes FL absq dv limit kb l0 mm c d k (fun a' m' o => off 0x19E a m a' m' o /\ aA a' = aA a /\ aHL a' = 0x2000 /\ aside (aBC' a) (aDE' a) (aHL' a) a').
Proof. intros Q T D FL ch absq M dv limit kb l0 mm c d k KM W a m PX NH. exact (lib_again_off_runs FL ch absq (models_ok _ _ _ M) dv limit kb l0 mm c d k KM W PX NH 0x19D 0x19E 0x2000 ltac:(cbn; tauto)). Qed.
Theorem C61_wait_woken_alone : forall Q T D (FL : Flavour Q) (ch : SpecIsa.chip T) absq, models FL ch absq ->
  forall (dv : dev D) limit kb l0 mm c d k, kernel_mem kb l0 mm -> wf c -> let a := abs absq c in let m := kview kb (rev l0) in
  aPX a = None -> aHALT a = false -> aIFF1 a = false -> aPC a = 0x19E -> aHL a = 0x2000 ->
  comes_alone FL absq dv limit kb l0 mm c d k (fun a' m' o => wait_round a m a' m' o (at_ret a a' 0x1AA)).
Proof. intros Q T D FL ch absq M dv limit kb l0 mm c d k KM W. exact (wait_again_alone_runs FL ch absq (models_ok _ _ _ M) dv limit kb l0 mm c d k KM W). Qed.
Theorem C61_timeout_off : forall Q T D (FL : Flavour Q) (ch : SpecIsa.chip T) absq, models FL ch absq ->
  forall (dv : dev D) limit kb l0 mm c d k, kernel_mem kb l0 mm -> wf c -> let a := abs absq c in let m := kview kb (rev l0) in
  aPX a = None -> aHALT a = false -> aPC a = 0x28 -> aA a = 6 ->
  comes FL absq dv limit kb l0 mm c d k (fun a' m' o => off 0x1CA a m a' m' o /\ aHL a' = 0x2000 /\ aside (aBC a) (aDE a) (aHL a) a').
Proof. intros Q T D FL ch absq M dv limit kb l0 mm c d k KM W a m PX NH. exact (lib_off_runs FL ch absq (models_ok _ _ _ M) dv limit kb l0 mm c d k KM W PX NH 6 0x1C6 0x1CA 0x2000 ltac:(cbn; tauto)). Qed.
Theorem C61_timeout_alone : forall Q T D (FL : Flavour Q) (ch : SpecIsa.chip T) absq, models FL ch absq ->
  forall (dv : dev D) limit kb l0 mm c d k, kernel_mem kb l0 mm -> wf c -> let a := abs absq c in let m := kview kb (rev l0) in
  aPX a = None -> aHALT a = false -> aIFF1 a = false -> aPC a = 0x1CA -> aHL a = 0x2000 ->
  comes_alone FL absq dv limit kb l0 mm c d k (fun a' m' o => timeout_post a m a' m' o (at_ret a a' 0x1E1) (aBC' a) (aDE' a) (aHL' a)).
Proof. intros Q T D FL ch absq M dv limit kb l0 mm c d k KM W. exact (timeout_alone_runs FL ch absq (models_ok _ _ _ M) dv limit kb l0 mm c d k KM W). Qed.
Theorem C61_timeout_woken_off : forall Q T D (FL : Flavour Q) (ch : SpecIsa.chip T) absq, models FL ch absq ->
  forall (dv : dev D) limit kb l0 mm c d k, kernel_mem kb l0 mm -> wf c -> let a := abs absq c in let m := kview kb (rev l0) in
  aPX a = None -> aHALT a = false -> aPC a = 0x1D4 -> aHL a = 0x2000 ->
  comes FL absq dv limit kb l0 mm c d k (fun a' m' o => off 0x1D5 a m a' m' o /\ aA a' = aA a /\ aHL a' = 0x2000 /\ aside (aBC' a) (aDE' a) (aHL' a) a').
Proof. intros Q T D FL ch absq M dv limit kb l0 mm c d k KM W a m PX NH. exact (lib_again_off_runs FL ch absq (models_ok _ _ _ M) dv limit kb l0 mm c d k KM W PX NH 0x1D4 0x1D5 0x2000 ltac:(cbn; tauto)). Qed.
Theorem C61_timeout_woken_alone : forall Q T D (FL : Flavour Q) (ch : SpecIsa.chip T) absq, models FL ch absq ->
  forall (dv : dev D) limit kb l0 mm c d k, kernel_mem kb l0 mm -> wf c -> let a := abs absq c in let m := kview kb (rev l0) in
  aPX a = None -> aHALT a = false -> aIFF1 a = false -> aPC a = 0x1D5 -> aHL a = 0x2000 ->
  comes_alone FL absq dv limit kb l0 mm c d k (fun a' m' o => timeout_round a m a' m' o (at_ret a a' 0x1E1)).
Proof. intros Q T D FL ch absq M dv limit kb l0 mm c d k KM W. exact (timeout_again_alone_runs FL ch absq (models_ok _ _ _ M) dv limit kb l0 mm c d k KM W). Qed.
(** The table of the interrupts moved to a page of the user; interrupts are then served as before. *)
Theorem C61_move : forall Q T D (FL : Flavour Q) (ch : SpecIsa.chip T) absq, models FL ch absq ->
  forall (dv : dev D) limit kb l0 mm c d k, kernel_mem kb l0 mm -> wf c -> let a := abs absq c in let m := kview kb (rev l0) in
  called 24 a -> let h := aHL a / 256 in 0x20 <= h -> 256 * h + 12 <= 0x4000 + kb * 1024 -> (256 * h + 12 <= aSP a \/ aSP a + 1 < 256 * h) ->
  comes FL absq dv limit kb l0 mm c d k (move_post a m).
Proof. intros Q T D FL ch absq M dv limit kb l0 mm c d k KM W. exact (move_runs FL ch absq (models_ok _ _ _ M) dv limit kb l0 mm c d k KM W). Qed.
Theorem C61_interrupt : forall Q T D (FL : Flavour Q) (ch : SpecIsa.chip T) absq, models FL ch absq ->
  forall (dv : dev D) limit kb l0 mm c d k, kernel_mem kb l0 mm -> wf c -> let a := abs absq c in let m := kview kb (rev l0) in
  aIFF1 a = true -> aEI a = false -> aPX a = None -> aIM a = Mode2 -> moved a m -> room 6 kb a -> answered FL absq dv limit kb l0 mm c d k (irq_post a m).
Proof. intros Q T D FL ch absq M dv limit kb l0 mm c d k KM W. exact (moved_runs FL ch absq (models_ok _ _ _ M) dv limit kb l0 mm c d k KM W). Qed.
Theorem C61_interrupt_alone : forall Q T D (FL : Flavour Q) (ch : SpecIsa.chip T) absq, models FL ch absq ->
  forall (dv : dev D) limit kb l0 mm c d k, kernel_mem kb l0 mm -> wf c -> let a := abs absq c in let m := kview kb (rev l0) in
  aIFF1 a = true -> aEI a = false -> aPX a = None -> aIM a = Mode2 -> moved a m -> room 6 kb a -> answered_alone FL absq dv limit kb l0 mm c d k (irq_first a m).
Proof. intros Q T D FL ch absq M dv limit kb l0 mm c d k KM W. exact (moved_first_runs FL ch absq (models_ok _ _ _ M) dv limit kb l0 mm c d k KM W). Qed.
(** All characters that have come are thrown away; but the caller's registers are not what they were ([prune_post]). *)
Theorem C61_prune : forall Q T D (FL : Flavour Q) (ch : SpecIsa.chip T) absq, models FL ch absq ->
  forall (dv : dev D) limit kb l0 mm c d k, kernel_mem kb l0 mm -> wf c -> let a := abs absq c in let m := kview kb (rev l0) in
  called 2 a -> room 4 kb a -> (have (in_of m) = None -> more (in_of m) = false) -> comes FL absq dv limit kb l0 mm c d k (prune_post a m).
Proof. intros Q T D FL ch absq M dv limit kb l0 mm c d k KM W. exact (prune_runs FL ch absq (models_ok _ _ _ M) dv limit kb l0 mm c d k KM W). Qed.
(** ** Examples

    A program at 4000h with the terminal of [C58_example]; what the terminal has got, and the CPU. *)
Definition program (l : list Z) : list mop := map (fun '(a, v) => MWrite a v) (combine (map (fun i => 0x4000 + Z.of_nat i) (seq 0 (length l))) l).
Definition starts (p : Z) : cpu qstate := set_iffs true true (set_i 1 (set_im Mode2 (set_sp 0x7FF0 (nm p)))).
Definition session (l0 : list mop) (t : nat) (c : cpu qstate) (n : nat) : option (list Z * cpu qstate * ralmem) :=
  match mem_new kernel 16 with
  | Some m0 => match mem_run l0 m0 with
    | Some (m, _) => match runl (ral_host 255 124 tty_dev 1000000) (steps NMOS n c) (Some (m, ([], t))) (mkTClock 0 1000000) with
      | Some (c', Some (m', (l, _)), _, _) => Some (l, c', m')
      | _ => None
      end
    | None => None
    end
  | None => None
  end.
Definition heard (l : list Z) (n : nat) : option (list Z * Z) := option_map (fun '(t, c, _) => (t, pc c)) (session (program l) 0 (starts 0x4000) n).
(** LD A,18; LD HL,1050; LD E,'*'; RST 28h; JR itself *)
Example C61_example_number : heard [0x3E; 18; 0x21; 0x1A; 0x04; 0x1E; 42; 0xEF; 0x18; 0xFE] 300 = Some ([42; 49; 48; 53; 48], 0x4008).
Proof. vm_compute. reflexivity. Qed.
(** LD A,16; LD DE,700h; RST 28h; LD A,10; LD BC,'-' and 2; RST 28h; LD A,12; LD HL,4019h; LD E,'.'; RST 28h; JR itself, with the text "Hi." *)
Example C61_example_text : heard [0x3E; 16; 0x11; 0; 7; 0xEF; 0x3E; 10; 0x01; 45; 2; 0xEF; 0x3E; 12; 0x21; 0x19; 0x40; 0x1E; 46; 0xEF; 0x18; 0xFE; 0; 0; 0; 72; 105; 46] 420 =
  Some ([55; 45; 45; 72; 105], 0x4014).
Proof. vm_compute. reflexivity. Qed.
(** Called with a character in the buffer, BC 1234h and HL 5678h. *)
Definition one_came : list mop := [MFetch 0; MWrite 0x2004 65; MWrite 0x2005 2; MWrite 0x7FF0 0; MWrite 0x7FF1 0x50].
Definition pruning : cpu qstate := set_acc 2 (set_bc 0x1234 (set_hl 0x5678 (starts 0x28))).
Lemma kernel_mem_example l0 : all_allowed [] l0 -> Forall byte_op l0 -> exists mm, kernel_mem 16 l0 mm.
Proof.
  intros A B. destruct (mem_new kernel 16) as [m0|] eqn:E0; [|vm_compute in E0; discriminate E0].
  destruct (further kernel 16 m0 m0 [] [] ltac:(discriminate) E0 I eq_refl l0 A) as (mm & E1).
  exists mm. exists m0, (answers kernel 16 [] l0). split; [discriminate|]. split; [exact E0|]. split; [exact A|]. split; [exact E1|exact B].
Qed.
Example C61_example_called : (exists mm, kernel_mem 16 one_came mm) /\ wf pruning /\ called 2 (abs q_modified pruning) /\ room 4 16 (abs q_modified pruning) /\
  have (in_of (kview 16 (rev one_came))) = Some 65.
Proof.
  split; [apply kernel_mem_example; [cbn; repeat (split; try (intuition discriminate))|repeat constructor; discriminate]|].
  split; [constructor; split; vm_compute; congruence|]. split; [repeat split; vm_compute; congruence|]. split; [split; vm_compute; congruence|vm_compute; reflexivity].
Qed.

(** ** What is not so

    input_prune does not keep the registers of its caller: "jr input_prune" goes to the EXX once more. *)
Theorem C61_prune_refuted : exists l0 mm c n t c' m',
  kernel_mem 16 l0 mm /\ wf c /\ called 2 (abs q_modified c) /\ room 4 16 (abs q_modified c) /\ session l0 0 c n = Some (t, c', m') /\
  pc c' = word_at (kview 16 (rev l0)) (sp c) /\ sp c' = sp c + 2 /\ bc c' <> bc c /\ hl c' <> hl c.
Proof.
  destruct C61_example_called as ((mm & KM) & W & CA & R & _). exists one_came, mm, pruning, 42%nat.
  destruct (session one_came 0 pruning 42) as [((t, c'), m')|] eqn:E; [|vm_compute in E; discriminate E].
  exists t, c', m'. split; [exact KM|]. split; [exact W|]. split; [exact CA|]. split; [exact R|]. split; [reflexivity|].
  assert (G : option_map (fun '(_, c, _) => (pc c, sp c, bc c, hl c)) (session one_came 0 pruning 42) = Some (0x5000, 0x7FF2, 0, 0x2004)) by (vm_compute; reflexivity).
  rewrite E in G. injection G as -> -> -> ->. repeat split; vm_compute; congruence.
Qed.
(** move_int_vectors with H = 05h, as the comment in the source allows ("H must be >= 0x04"): I is 05h, but the table is not there. *)
Definition low : cpu qstate := set_acc 24 (set_hl 0x500 (starts 0x28)).
Definition returning : list mop := [MFetch 0; MWrite 0x7FF0 0; MWrite 0x7FF1 0x50].
Lemma five {A B C D E} (a a' : A) (b b' : B) (c c' : C) (d d' : D) (e e' : E) : Some (a, b, c, d, e) = Some (a', b', c', d', e') -> a = a' /\ b = b' /\ c = c' /\ d = d' /\ e = e'.
Proof. intros [= -> -> -> -> ->]. auto. Qed.
Theorem C61_move_refuted : exists l0 mm c n t c' m',
  kernel_mem 16 l0 mm /\ wf c /\ called 24 (abs q_modified c) /\ 0x04 <= aHL (abs q_modified c) / 256 /\ session l0 0 c n = Some (t, c', m') /\
  pc c' = word_at (kview 16 (rev l0)) (sp c) /\ sp c' = sp c + 2 /\ get_i c' = 0x05 /\
  option_map snd (mem_run [MRead 0x500] m') <> option_map snd (mem_run [MRead 0x100] m').
Proof.
  assert (exists mm, kernel_mem 16 returning mm) as (mm & KM) by (apply kernel_mem_example; [cbn; repeat (split; try (intuition discriminate))|repeat constructor; discriminate]).
  exists returning, mm, low, 28%nat. destruct (session returning 0 low 28) as [((t, c'), m')|] eqn:E; [|vm_compute in E; discriminate E].
  exists t, c', m'. split; [exact KM|]. split; [constructor; split; vm_compute; congruence|]. split; [repeat split; vm_compute; congruence|]. split; [vm_compute; congruence|]. split; [reflexivity|].
  assert (G : option_map (fun '(_, c, m) => (pc c, sp c, get_i c, option_map snd (mem_run [MRead 0x500] m), option_map snd (mem_run [MRead 0x100] m))) (session returning 0 low 28) = Some (0x5000, 0x7FF2, 5, Some [32], Some [15])) by (vm_compute; reflexivity).
  rewrite E in G. apply five in G as (-> & -> & -> & -> & ->). repeat split; vm_compute; congruence.
Qed.
(** With the table in one of the pages 20h to 3Fh, which only the kernel sees, an interrupt of a program of the user goes astray. *)
Definition hidden : list mop := [MFetch 0] ++ map (fun i => MWrite (0x3000 + Z.of_nat i) (nth (0x100 + i) kernel 0)) (seq 0 12) ++ [MWrite 0x4000 0x18; MWrite 0x4001 0xFE].
Theorem C61_hidden_refuted : exists l0 mm c t c' m',
  kernel_mem 16 l0 mm /\ wf c /\ 0x20 <= aI (abs q_modified c) < 0x40 /\ (forall i, 0 <= i < 12 -> kview 16 (rev l0) (256 * aI (abs q_modified c) + i) = kview 16 (rev l0) (0x100 + i)) /\
  session l0 2 c 2 = Some (t, c', m') /\ sp c' = sp c - 2 /\ pc c' = 0xFFFF /\ word_at (kview 16 (rev l0)) 0x10A <> 0xFFFF.
Proof.
  assert (exists mm, kernel_mem 16 hidden mm) as (mm & KM) by (apply kernel_mem_example; [cbn; repeat (split; try (intuition discriminate))|repeat constructor; discriminate]).
  exists hidden, mm, (set_i 0x30 (starts 0x4000)). destruct (session hidden 2 (set_i 0x30 (starts 0x4000)) 2) as [((t, c'), m')|] eqn:E; [|vm_compute in E; discriminate E].
  exists t, c', m'. split; [exact KM|]. split; [constructor; split; vm_compute; congruence|]. split; [split; vm_compute; congruence|].
  split. { intros i Hi. assert (i = 0 \/ i = 1 \/ i = 2 \/ i = 3 \/ i = 4 \/ i = 5 \/ i = 6 \/ i = 7 \/ i = 8 \/ i = 9 \/ i = 10 \/ i = 11) as K by lia. repeat destruct K as [->|K]; [..|subst i]; vm_compute; reflexivity. }
  split; [reflexivity|].
  assert (G : option_map (fun '(_, c, m) => (pc c, sp c)) (session hidden 2 (set_i 0x30 (starts 0x4000)) 2) = Some (0xFFFF, 0x7FEE)) by (vm_compute; reflexivity).
  rewrite E in G. injection G as -> ->. repeat split; vm_compute; congruence.
Qed.
Definition C61_all := (@C61_number8, @C61_number16, @C61_repeat, @C61_text_tok, @C61_text, @C61_frames, @C61_frames_alone, @C61_peek, @C61_peek_woken, @C61_flush,
  @C61_flush_woken, @C61_wait, @C61_wait_woken, @C61_timeout, @C61_timeout_woken, @C61_move, @C61_interrupt, @C61_interrupt_alone, @C61_prune, @C61_frames_off, @C61_peek_off, @C61_peek_woken_off, @C61_peek_alone, @C61_flush_off, @C61_flush_woken_off, @C61_flush_alone, @C61_wait_off, @C61_wait_alone, @C61_wait_woken_off, @C61_wait_woken_alone, @C61_timeout_off, @C61_timeout_alone, @C61_timeout_woken_off, @C61_timeout_woken_alone,
  @C61_prune_refuted, @C61_move_refuted, @C61_hidden_refuted).
Print Assumptions C61_all.
