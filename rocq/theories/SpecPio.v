(** What a device of the example computer is asked and answers, and what the parallel port has to make of it
    (examples/ral1243/README.md:45-56, examples/ral1243/src/pio.rs:18-50). *)
From Coq Require Import ZArith Bool List.
From Verif Require Import Base RalBus RalPio.
Import ListNotations.
Open Scope Z_scope.

(** Things that happen to a device and its answers. *)
Inductive bop := BReset (t : Z) | BFrame (t : Z) | BM1 (t : Z) | BSecond (delta : Z) | BIn (p t : Z) | BOut (p v t : Z) | BIrq (t : Z)
  | BAck (pc t : Z) | BReti (pc t : Z).
Inductive ans := ANone | AByte (v : Z) | ALine (b : bool).
Definition dev_do {D} (dv : dev D) (o : bop) (d : D) : option (D * ans) :=
  let quiet (x : option D) := option_map (fun d => (d, ANone)) x in
  match o with
  | BReset t => quiet (dv_reset dv t d)
  | BFrame t => quiet (dv_frame_end dv t d)
  | BM1 t => quiet (dv_m1 dv t d)
  | BSecond n => quiet (dv_next_second dv n d)
  | BIn p t => option_map (fun x => (fst x, AByte (fst (snd x)))) (dv_read_io dv p t d)
  | BOut p v t => option_map (fun x => (fst x, ANone)) (dv_write_io dv p v t d)
  | BIrq t => option_map (fun x => (fst x, ALine (snd x))) (dv_is_irq dv t d)
  | BAck pc t => option_map (fun x => (fst x, AByte (fst (snd x)))) (dv_irq_data dv pc t d)
  | BReti pc t => option_map (fun x => (fst x, ANone)) (dv_reti dv pc t d)
  end.
Fixpoint dev_ops {D} (dv : dev D) (ops : list bop) (d : D) : option (D * list (bop * ans)) :=
  match ops with
  | [] => Some (d, [])
  | o :: ops =>
      match dev_do dv o d with
      | Some (d, x) => option_map (fun r => (fst r, (o, x) :: snd r)) (dev_ops dv ops d)
      | None => None
      end
  end.

(** Ports: 8 and 10 for the data, 9 and 11 for the control words; only the low byte of the address counts. *)
Definition word_to (k : Z) (o : bop) : option Z := match o with BOut p v _ => if p mod 256 =? k then Some v else None | _ => None end.
Definition is_reset (o : bop) : bool := match o with BReset _ => true | _ => false end.
(** Control words: mode (xxxx1111, the mode in the two upper bits), interrupt enable (xxxx0011, bit 7) and vector (xxxxxxx0). *)
Definition mode_word (v : Z) : bool := v mod 16 =? 15.
Definition selects (m : Z) (v : Z) : Prop := v mod 16 = 15 /\ v / 64 = m.
Definition enables (v : Z) : Prop := v mod 16 = 3 /\ 128 <= v.
Definition disables (v : Z) : Prop := v mod 16 = 3 /\ v < 128.
Definition vector_word (v : Z) : bool := v mod 2 =? 0.
(** Channels by their data port, A at 8 and B at 10.  What turns the interrupts of a channel on and off: *)
Definition data_port (b : bool) : Z := if b then 10 else 8.
Definition turns_on (k : Z) (o : bop) : Prop := exists v, word_to (k + 1) o = Some v /\ enables v.
Definition turns_off (k : Z) (o : bop) : Prop := is_reset o = true \/ exists v, word_to (k + 1) o = Some v /\ disables v.
(** The port looks at what is connected to it. *)
Definition polls (o : bop) : bool := match o with BFrame _ | BIrq _ => true | _ => false end.
(** Neither a reset nor a control word. *)
Definition plain (o : bop) : Prop := is_reset o = false /\ word_to 9 o = None /\ word_to 11 o = None.
(** Not supported: the bidirectional mode, the control mode and the interrupt control word xxxx0111. *)
Definition unsupported (v : Z) : Prop := v mod 16 = 7 \/ v mod 16 = 15 /\ 2 <= v / 64.
Definition byte_op (o : bop) : Prop := match o with BOut _ v _ => 0 <= v < 256 | _ => True end.
Definition op_time (o : bop) : Z := match o with BReset t | BFrame t | BM1 t | BSecond t | BIn _ t | BOut _ _ t | BIrq t | BAck _ t | BReti _ t => t end.

(** A stream and a sink that remember on a tape what went through them. *)
Definition taped {S} (slurp : S -> S * option Z) (x : S * list Z) : (S * list Z) * option Z :=
  match slurp (fst x) with (s, Some v) => ((s, snd x ++ [u8 v]), Some v) | (s, None) => ((s, snd x), None) end.
Definition taped_sink {R} (flush : Z -> R -> R * bool) (v : Z) (x : R * list Z) : (R * list Z) * bool :=
  let (r, ok) := flush v (fst x) in ((r, if ok then snd x ++ [v] else snd x), ok).

(** Answers to reading the input channel, bytes written to the output channel. *)
Definition a_reads (l : list (bop * ans)) : list Z :=
  flat_map (fun e => match e with (BIn p _, AByte v) => if (p mod 256 =? 8) || (p mod 256 =? 9) then [v] else [] | _ => [] end) l.
Definition b_writes (ops : list bop) : list Z := flat_map (fun o => match word_to 10 o with Some v => [v] | None => [] end) ops.
(** The program sees each byte the terminal has sent, in order, once or more - only the last one may be still unread. *)
Definition heard (first : Z) (sent read : list Z) : Prop :=
  exists n ns, length ns = length sent /\ Forall (fun k => 1 <= k)%nat (removelast ns) /\
    read = repeat first n ++ concat (map (fun x => repeat (fst x) (snd x)) (combine sent ns)).
(** The program writes a byte only when it has acknowledged an interrupt, with the vector [vb], since the one before. *)
Fixpoint paced (vb : Z) (granted : bool) (l : list (bop * ans)) : Prop :=
  match l with
  | [] => True
  | (o, x) :: l =>
      match word_to 10 o with
      | Some _ => granted = true /\ paced vb false l
      | None => match o, x with BAck _ _, AByte v => paced vb (granted || (v =? vb)) l | _, _ => paced vb granted l end
      end
  end.
(** A byte the sink has refused so far. *)
Definition held (x : option Z) : list Z := match x with Some v => [v] | None => [] end.
