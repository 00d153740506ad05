(** Property C46: forwarding wrappers. *)
From Coq Require Import ZArith Bool List.
From Verif Require Import Base Parse Cpu Flavours Prog Exec Clock Demo Trace Forward SpecForward ForwardProofs.
Import ListNotations.
Open Scope Z_scope.

(** A wrapper forwarding every method, or every method but those the wrapped host leaves to their defaults: any piece of CPU
    code runs as on the wrapped hosts, makes the same calls, gets the same answers, and leaves the rest of the wrappers alone. *)
Theorem C46_forward : forall TS WB RB B C W V (l : place W B) (k : place V C) ms (h : host TS WB RB B C), lawful l -> lawful k ->
  (forall m, In m ms \/ not_overridden h m) ->
  forall X (p : prog TS WB RB X) w v,
  runl (wrapper l k ms h) p w v = inside l k w v (runl h p (taken l w) (taken k v)).
Proof. intros TS WB RB B C W V l k ms h Hl Hk Hm X p. exact (runl_inside l k ms h Hl Hk Hm p). Qed.
(** The arm [@], or [@ref] and [@mut] together, define every method of the traits, once. *)
Theorem C46_arms :
  (forall m, In m (clock_arm All)) /\ (forall m, In m (clock_arm Ref ++ clock_arm Mut)) /\
  (forall m, In m (io_all ++ memory_arm All)) /\ (forall m, In m (io_all ++ memory_arm Ref ++ memory_arm Mut)) /\
  NoDup (clock_arm Ref ++ clock_arm Mut) /\ NoDup (io_all ++ memory_arm Ref ++ memory_arm Mut).
Proof. exact arms. Qed.
(** The wrapper of the documentation: nothing changes for the CPU or the wrapped host, and afterwards the wrapper holds the
    data of the last interrupt acknowledged. *)
Theorem C46_debug_bus : forall TS WB RB B C X (h : host TS WB RB B C) (p : prog TS WB RB X) b s c,
  runl (debug_bus h) p (b, s) c =
  match runl h p b c with
  | Some (a, b', c', log) => Some (a, (b', last_irq_data log s), c', log)
  | None => None
  end.
Proof. exact @debug_bus_runs. Qed.

Example C46_ex_places : (forall B R, lawful (@bus B R)) /\ (forall C, lawful (@itself C)).
Proof. exact (conj (@bus_lawful) (@itself_lawful)). Qed.

(** A CPU in mode 2, I = 0x12, interrupts enabled; the device supplies 0x10; the vector at 0x1210 is 0x5678. *)
Definition im2 : cpu qstate := set_iffs true true (set_im Mode2 (set_i 0x12 (set_sp 0x8000 (nm 0x100)))).
Definition vectors : mem := poke 0x1210 [0x78; 0x56] (poke 0x12FF [0xCD; 0xAB] m0).
Example C46_ex_bus :
  match runl (debug_bus (rig 0 0x10)) (irq NMOS false im2) (vectors, None) 100 with
  | Some ((c, _), (m, s), _, _) => get_pc c = 0x5678 /\ s = Some 0x10 /\ m 0x7FFF = 0x01
  | _ => False
  end.
Proof. vm_compute. auto. Qed.
(** "Be careful if you don't forward a method": without [irq_data] the default 0xFF is the vector. *)
Example C46_ex_not_forwarded :
  let h := wrapper (bus (R := unit)) itself ([Write_io; Read_io; Is_irq; Reti_] ++ memory_arm All) (rig 0 0x10) in
  match runl h (irq NMOS false im2) (vectors, tt) 100 with
  | Some ((c, _), _, _, _) => get_pc c = 0xABCD
  | _ => False
  end.
Proof. vm_compute. reflexivity. Qed.
(** [rig] leaves reading of memory to [read_debug], so the other reading methods need not be forwarded. *)
Example C46_ex_defaults : forall m, In m [Write_io; Is_irq; Irq_data; Reti_; Write_mem; Read_debug] \/ not_overridden (rig 0 0x10) m.
Proof.
  intros []; try (left; cbn; tauto); right; cbn; intros; try reflexivity. f_equal. unfold u8. rewrite !Zmod_mod. reflexivity.
Qed.
Definition C46_all := (@C46_forward, C46_arms, @C46_debug_bus).
Print Assumptions C46_all.
