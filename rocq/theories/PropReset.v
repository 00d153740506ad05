(** C62. *)
From Coq Require Import ZArith Bool List Lia.
From Verif Require Import Base Parse Cpu Flavours Prog Trace Exec Range Clock Demo RalMemory RalBus SpecRal RalBusProofs SpecState SpecIsa IsaLink IsaRun Steps RomImage SpecRom SpecLib SpecReset RomResetRun PropRom PropLib.
Import ListNotations.
Open Scope Z_scope.

(** The reset switches interrupts off and then, whatever is in the registers and in memory, tests and clears the kernel's memory, sets up the
    counters and the ports, and has interrupts on; none can come before. *)
Theorem C62_reset_off : forall Q T D (FL : Flavour Q) (ch : SpecIsa.chip T) absq, models FL ch absq ->
  forall (dv : dev D) limit kb l0 mm c d k, kernel_mem kb l0 mm -> wf c -> let a := abs absq c in let m := kview kb (rev l0) in
  aPX a = None -> aHALT a = false -> aPC a = 0 -> comes FL absq dv limit kb l0 mm c d k (off 1 a m).
Proof. intros Q T D FL ch absq M dv limit kb l0 mm c d k KM W. exact (reset_off_runs FL ch absq (models_ok _ _ _ M) dv limit kb l0 mm c d k KM W). Qed.
Theorem C62_reset : forall Q T D (FL : Flavour Q) (ch : SpecIsa.chip T) absq, models FL ch absq ->
  forall (dv : dev D) limit kb l0 mm c d k, kernel_mem kb l0 mm -> wf c -> let a := abs absq c in let m := kview kb (rev l0) in
  aPX a = None -> aHALT a = false -> aPC a = 1 -> aIFF1 a = false -> comes_alone FL absq dv limit kb l0 mm c d k (reset_post m).
Proof. intros Q T D FL ch absq M dv limit kb l0 mm c d k KM W. exact (reset_alone_runs FL ch absq (models_ok _ _ _ M) dv limit kb l0 mm c d k KM W). Qed.
(** RST 38h: a test of a cartridge returns to its caller's caller, every other program is left for the menu, with interrupts off and then no
    chance for one until everything is set up. *)
Theorem C62_abort : forall Q T D (FL : Flavour Q) (ch : SpecIsa.chip T) absq, models FL ch absq ->
  forall (dv : dev D) limit kb l0 mm c d k, kernel_mem kb l0 mm -> wf c -> let a := abs absq c in let m := kview kb (rev l0) in
  aPX a = None -> aHALT a = false -> knows_top m kb -> aPC a = 0x38 -> 0x4000 <= aSP a <= 0xFFFB -> comes FL absq dv limit kb l0 mm c d k (abort_post a m).
Proof. intros Q T D FL ch absq M dv limit kb l0 mm c d k KM W. exact (abort_runs FL ch absq (models_ok _ _ _ M) dv limit kb l0 mm c d k KM W). Qed.
Theorem C62_abort_off : forall Q T D (FL : Flavour Q) (ch : SpecIsa.chip T) absq, models FL ch absq ->
  forall (dv : dev D) limit kb l0 mm c d k, kernel_mem kb l0 mm -> wf c -> let a := abs absq c in let m := kview kb (rev l0) in
  aPX a = None -> aHALT a = false -> aPC a = 0x38 -> 0x4000 <= aSP a <= 0xFFFB -> bit_at m 0x2007 0 = false ->
  comes FL absq dv limit kb l0 mm c d k (fun a' m' o => still m m' o /\ aPC a' = 0x40 /\ aIFF1 a' = false /\ aIFF2 a' = false /\ aHALT a' = false /\ aPX a' = None).
Proof. intros Q T D FL ch absq M dv limit kb l0 mm c d k KM W. exact (abort_off_runs FL ch absq (models_ok _ _ _ M) dv limit kb l0 mm c d k KM W). Qed.
Theorem C62_menu : forall Q T D (FL : Flavour Q) (ch : SpecIsa.chip T) absq, models FL ch absq ->
  forall (dv : dev D) limit kb l0 mm c d k, kernel_mem kb l0 mm -> wf c -> let a := abs absq c in let m := kview kb (rev l0) in
  aPX a = None -> aHALT a = false -> knows_top m kb -> aPC a = 0x40 -> aIFF1 a = false -> aIFF2 a = false ->
  comes_alone FL absq dv limit kb l0 mm c d k (fun a' m' o => menu_post m a' m' o (m 0x2007) /\ same_but (fun y => y = 0x2005 \/ at_top m y) m m').
Proof. intros Q T D FL ch absq M dv limit kb l0 mm c d k KM W. exact (menu_alone_runs FL ch absq (models_ok _ _ _ M) dv limit kb l0 mm c d k KM W). Qed.
(** The non-maskable interrupt leaves for the menu when that is allowed; otherwise the program goes on with everything it had. *)
Theorem C62_nmi : forall Q T D (FL : Flavour Q) (ch : SpecIsa.chip T) absq, models FL ch absq ->
  forall (dv : dev D) limit kb l0 mm c d k, kernel_mem kb l0 mm -> wf c -> let a := abs absq c in let m := kview kb (rev l0) in
  aPX a = None -> aHALT a = false -> knows_top m kb -> aPC a = 0x66 -> aIFF1 a = false -> 0x4004 <= aSP a <= 0x4000 + kb * 1024 -> aSP a <= 0xFFFE ->
  comes_alone FL absq dv limit kb l0 mm c d k (nmi_post a m).
Proof. intros Q T D FL ch absq M dv limit kb l0 mm c d k KM W. exact (nmi_alone_runs FL ch absq (models_ok _ _ _ M) dv limit kb l0 mm c d k KM W). Qed.
Definition C62_all := (@C62_reset_off, @C62_reset, @C62_abort, @C62_abort_off, @C62_menu, @C62_nmi).
Print Assumptions C62_all.

(** ** Examples

    Memory to 7FFFh is known, the NMI is allowed, a character waits for the port; 5000h and 5002h are on the stack. *)
Definition knowing (flags : Z) : list mop :=
  MFetch 0 :: map (fun '(a, v) => MWrite a v) [(0x2005, 12); (0x2006, 65); (0x2007, flags); (0x2008, 0xFF); (0x2009, 0x7F); (0x7FF0, 0); (0x7FF1, 0x50); (0x7FF2, 2); (0x7FF3, 0x50)].
Definition sent_to (l0 : list mop) (c : cpu qstate) (n : nat) : option (list Z * Z * Z * bool) :=
  option_map (fun '(_, c', m') => (map (fun a => match m_read_mem m' a with Some v => v | None => -1 end) [0x2005; 0x2007; 0x7FFE; 0x7FFF], pc c', sp c', iff1 c')) (session l0 0 c n).
Example C62_example_knows : (exists mm, kernel_mem 16 (knowing 3) mm) /\ wf (starts 0x66) /\ knows_top (kview 16 (rev (knowing 3))) 16 /\
  bit_at (kview 16 (rev (knowing 3))) 0x2007 0 = true.
Proof.
  split; [apply kernel_mem_example; [cbn; repeat (split; try (intuition discriminate))|repeat constructor; discriminate]|].
  split; [constructor; split; vm_compute; congruence|]. split; [split; vm_compute; congruence|vm_compute; reflexivity].
Qed.
Definition stopped (p : Z) : cpu qstate := set_iffs false true (starts p).
(** RST 38h in a program and in a test; the NMI when it is allowed and when it is not. *)
Example C62_example : sent_to (knowing 2) (starts 0x38) 43 = Some ([0; 2; 0x56; 0], 0x557, 0x8000, true) /\ sent_to (knowing 1) (starts 0x38) 4 = Some ([12; 1; 0; 0], 0x5002, 0x7FF4, true) /\
  sent_to (knowing 3) (stopped 0x66) 46 = Some ([0; 2; 0x56; 0], 0x557, 0x8000, true) /\ sent_to (knowing 1) (stopped 0x66) 8 = Some ([12; 1; 0; 0], 0x5000, 0x7FF2, true).
Proof. vm_compute. repeat split. Qed.
(** The first bytes of the test of the kernel's memory. *)
Example C62_example_test : option_map (fun '(_, c', m') => (pc c', hl c', iff1 c', m_read_mem m' 0x2000, m_read_mem m' 0x2001)) (session (knowing 3) 0 (starts 0) 16) = Some (0x446, 0x2002, false, Some 0x55, Some 0x55).
Proof. vm_compute. reflexivity. Qed.
