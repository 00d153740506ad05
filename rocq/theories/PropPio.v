(** C54. *)
From Coq Require Import ZArith Bool List Lia.
From Verif Require Import Base RalBus RalPio SpecPio RalPioProofs RalPioNext.
Import ListNotations.
Open Scope Z_scope.

(** Input (channel A): from the moment the input mode begins no byte of the terminal is lost, doubled by the port or out of order, whatever
    else happens to the machine; a program may read the same byte again until the next one comes. *)
Theorem C54_input : forall S R D slurp flush (dv : dev D) o x (p0 p p' : pio ((S * list Z) * bool) (R * option Z) D) ops l,
  let port := ral_pio (taped slurp) flush dv in
  (exists s r d, p = ral_pio_new s r d) \/
    dev_do port o p0 = Some (p, x) /\ byte_op o /\ (is_reset o = true \/ exists v, word_to 9 o = Some v /\ selects 1 v) ->
  dev_ops port ops p = Some (p', l) -> Forall (fun o => is_reset o = false /\ forall v, word_to 9 o = Some v -> mode_word v = false) ops ->
  exists first sent, snd (fst (ch_dev (pio_a p'))) = snd (fst (ch_dev (pio_a p))) ++ sent /\ heard first sent (a_reads l).
Proof. exact input_heard. Qed.
(** The port does not get stuck: after a reset, the input mode word, or reading the byte before, it takes the next byte of the terminal, if there is
    one, as soon as it looks (at the end of a frame, or asked for an interrupt with none in service); a program then reads it. *)
Theorem C54_next : forall S R D slurp flush (dv : dev D) o x (p0 p1 p2 p3 : pio ((S * list Z) * bool) (R * option Z) D) ops l s v y o2,
  let port := ral_pio (taped slurp) flush dv in
  dev_do port o p0 = Some (p1, x) ->
  is_reset o = true \/ (exists w, word_to 9 o = Some w /\ selects 1 w) \/ ch_output (pio_a p0) = false /\ (exists q t, o = BIn q t /\ q mod 256 = 8) ->
  dev_ops port ops p1 = Some (p2, l) -> Forall (fun o => is_reset o = false /\ (forall v, word_to 9 o = Some v -> mode_word v = false) /\ polls o = false) ops ->
  slurp (fst (fst (ch_dev (pio_a p1)))) = (s, Some v) -> dev_do port o2 p2 = Some (p3, y) -> (exists t, o2 = BFrame t \/ o2 = BIrq t /\ pio_ieo p2 = false) ->
  snd (fst (ch_dev (pio_a p3))) = snd (fst (ch_dev (pio_a p1))) ++ [v mod 256] /\
  forall q t p4 z, q mod 256 = 8 -> dev_do port (BIn q t) p3 = Some (p4, z) -> z = AByte (v mod 256).
Proof. intros S R D slurp flush dv. exact (next_taken slurp flush dv). Qed.
(** Output (channel B): if the program waits with each byte for the interrupt that says that the one before is gone, the sink gets all bytes
    in order, the last one perhaps later. *)
Theorem C54_output : forall S R D slurp flush (dv : dev D) o x (p0 p p' : pio (S * bool) ((R * list Z) * option Z) D) ops l,
  let port := ral_pio slurp (taped_sink flush) dv in
  dev_do port o p0 = Some (p, x) -> (exists v, word_to 11 o = Some v /\ selects 0 v) -> byte_op o ->
  snd (ch_dev (pio_b p0)) = None -> ch_int (pio_b p0) = false -> ch_vec (pio_a p0) <> ch_vec (pio_b p0) ->
  (forall pc t d d' y, dv_irq_data dv pc t d = Some (d', y) -> fst y <> ch_vec (pio_b p0)) ->
  dev_ops port ops p = Some (p', l) -> Forall plain ops -> paced (ch_vec (pio_b p0)) true l ->
  exists sent, snd (fst (ch_dev (pio_b p'))) = snd (fst (ch_dev (pio_b p))) ++ sent /\ b_writes ops = sent ++ held (snd (ch_dev (pio_b p'))).
Proof. exact output_sent. Qed.
(** A byte the sink refused is tried again each time the port looks. *)
Theorem C54_retry : forall S R D slurp flush (dv : dev D) q u t x (p0 p1 p2 p3 : pio (S * bool) ((R * list Z) * option Z) D) ops l v r y o2,
  let port := ral_pio slurp (taped_sink flush) dv in
  dev_do port (BOut q u t) p0 = Some (p1, x) -> q mod 256 = 10 -> ch_output (pio_b p0) = true -> snd (ch_dev (pio_b p1)) = Some v ->
  dev_ops port ops p1 = Some (p2, l) ->
  Forall (fun o => is_reset o = false /\ word_to 10 o = None /\ (forall v, word_to 11 o = Some v -> mode_word v = false) /\ polls o = false) ops ->
  flush v (fst (fst (ch_dev (pio_b p1)))) = (r, true) -> dev_do port o2 p2 = Some (p3, y) -> (exists t, o2 = BFrame t \/ o2 = BIrq t /\ pio_ieo p2 = false /\ ch_int (pio_a p3) = false) ->
  ch_dev (pio_b p3) = (r, snd (fst (ch_dev (pio_b p1))) ++ [v], None).
Proof. intros S R D slurp flush dv. exact (retried slurp flush dv). Qed.
(** If the sink takes everything at once there is nothing to wait for. *)
Theorem C54_willing : forall S R D slurp flush (dv : dev D) (p p' : pio (S * bool) ((R * list Z) * option Z) D) ops l,
  (forall v r, snd (flush v r) = true) -> ch_output (pio_b p) = true -> snd (ch_dev (pio_b p)) = None ->
  dev_ops (ral_pio slurp (taped_sink flush) dv) ops p = Some (p', l) -> Forall plain ops ->
  snd (fst (ch_dev (pio_b p'))) = snd (fst (ch_dev (pio_b p))) ++ b_writes ops /\ snd (ch_dev (pio_b p')) = None.
Proof. intros S R D slurp flush dv p p' ops l W O N E F. exact (output_willing slurp flush dv ops W p p' l E F O N). Qed.
(** Otherwise bytes can change places or get lost. *)
Definition choosy (v : Z) (r : list bool) : list bool * bool := match r with ok :: r => (r, ok) | [] => ([], true) end.
Theorem C54_output_refuted : exists r1 r2 ops p1 l1 p2 l2,
  let port := ral_pio (fun _ : unit => (tt, None)) (taped_sink choosy) terminator in
  Forall plain (tl ops) /\ hd_error ops = Some (BOut 11 0x0F 0) /\ b_writes ops = [1; 2] /\
  dev_ops port ops (ral_pio_new tt (r1, []) tt) = Some (p1, l1) /\ fst (ch_dev (pio_b p1)) = ([], [2; 1]) /\ snd (ch_dev (pio_b p1)) = None /\
  dev_ops port ops (ral_pio_new tt (r2, []) tt) = Some (p2, l2) /\ fst (ch_dev (pio_b p2)) = ([], [2]) /\ snd (ch_dev (pio_b p2)) = None.
Proof.
  exists [false; false; true; true], [false; false; false; true], [BOut 11 0x0F 0; BOut 10 1 5; BOut 10 2 10; BIrq 20]. do 4 eexists.
  split; [repeat constructor|].
  do 2 (split; [reflexivity|]). split; [vm_compute; reflexivity|]. do 2 (split; [reflexivity|]). split; [vm_compute; reflexivity|]. split; reflexivity.
Qed.
(** Interrupts: a channel asks for none from its reset or a disabling word until an M1 cycle after an enabling one. *)
Theorem C54_masked : forall S R D slurp flush (dv : dev D) (b : bool) o x (p0 p1 p2 : pio (S * bool) (R * option Z) D) ops1 ops2 l,
  let port := ral_pio slurp flush dv in
  (exists s r d, p1 = ral_pio_new s r d) \/ dev_do port o p0 = Some (p1, x) /\ byte_op o /\ turns_off (data_port b) o ->
  Forall (fun o => byte_op o /\ ~ turns_on (data_port b) o) ops1 -> Forall (fun o => byte_op o /\ forall t, o <> BM1 t) ops2 ->
  dev_ops port (ops1 ++ ops2) p1 = Some (p2, l) -> (if b then ch_int (pio_b p2) else ch_int (pio_a p2)) = false.
Proof. intros S R D slurp flush dv b o x p0 p1 p2 ops1 ops2 l. exact (masked slurp flush dv b o x p0 p1 ops1 ops2 p2 l). Qed.
(** After it each byte taken from the terminal makes a request, that stays until it is acknowledged or the interrupts are turned off and is
    the first to be answered, with the vector of the channel. *)
Theorem C54_request : forall S R D slurp flush (dv : dev D) o0 x0 (p0 p1 p2 p3 p4 p5 : pio ((S * list Z) * bool) (R * option Z) D)
    ops l o x ops2 l2 pc1 t1 t2 pc3 t3 l3,
  let port := ral_pio (taped slurp) flush dv in
  dev_do port o0 p0 = Some (p1, x0) -> byte_op o0 -> turns_on 8 o0 -> dev_ops port ops p1 = Some (p2, l) ->
  Forall (fun o => byte_op o /\ ~ turns_off 8 o) ops -> (exists t, In (BM1 t) ops) ->
  dev_do port o p2 = Some (p3, x) -> snd (fst (ch_dev (pio_a p3))) <> snd (fst (ch_dev (pio_a p2))) ->
  dev_ops port ops2 p3 = Some (p4, l2) ->
  Forall (fun o => byte_op o /\ ~ turns_off 8 o /\ (forall pc t, o <> BAck pc t) /\ forall v, word_to 9 o = Some v -> vector_word v = false) ops2 ->
  dev_ops port [BReti pc1 t1; BIrq t2; BAck pc3 t3] p4 = Some (p5, l3) -> map snd l3 = [ANone; ALine true; AByte (ch_vec (pio_a p2))].
Proof. intros S R D slurp flush dv o0 x0 p0 p1 p2 p3 p4 p5 ops l o x ops2 l2 pc1 t1 t2 pc3 t3 l3. exact (requested slurp flush dv o0 x0 p0 p1 ops p2 l o x p3 ops2 p4 l2 pc1 t1 t2 pc3 t3 p5 l3). Qed.
(** A byte that was written and is gone leads to a request too: a program waiting for it does not wait in vain. *)
Theorem C54_sent : forall S R D slurp flush (dv : dev D) o0 x0 (p0 p1 p2 p3 p4 p5 : pio (S * bool) ((R * list Z) * option Z) D)
    ops l q v t x ops2 l2 pc1 t1 t2 l3,
  let port := ral_pio slurp (taped_sink flush) dv in
  dev_do port o0 p0 = Some (p1, x0) -> byte_op o0 -> turns_on 10 o0 -> dev_ops port ops p1 = Some (p2, l) ->
  Forall (fun o => byte_op o /\ ~ turns_off 10 o) ops -> (exists t, In (BM1 t) ops) ->
  ch_output (pio_b p2) = true -> q mod 256 = 10 -> dev_do port (BOut q v t) p2 = Some (p3, x) -> snd (ch_dev (pio_b p3)) = None ->
  dev_ops port ops2 p3 = Some (p4, l2) -> Forall (fun o => byte_op o /\ plain o /\ (forall pc t, o <> BAck pc t) /\ word_to 10 o = None) ops2 ->
  dev_ops port [BReti pc1 t1; BIrq t2] p4 = Some (p5, l3) -> map snd l3 = [ANone; ALine true].
Proof. intros S R D slurp flush dv o0 x0 p0 p1 p2 p3 p4 p5 ops l q v t x ops2 l2 pc1 t1 t2 l3. exact (ready_in slurp flush dv o0 x0 p0 p1 ops p2 l q v t p3 x ops2 p4 l2 pc1 t1 t2 p5 l3). Qed.
(** Channel A goes before B.  While one of them is served neither they nor anything behind them asks; the RETI is for this port, not for
    what is behind it. *)
Theorem C54_service : forall S R D slurp flush (dv : dev D) pc t (p p1 : pio (S * bool) (R * option Z) D) x,
  let port := ral_pio slurp flush dv in
  dev_do port (BAck pc t) p = Some (p1, x) -> ch_int (pio_a p) || ch_int (pio_b p) = true ->
  x = AByte (if ch_int (pio_a p) then ch_vec (pio_a p) else ch_vec (pio_b p)) /\
  forall ops p2 l, dev_ops port ops p1 = Some (p2, l) -> Forall (fun o => is_reset o = false /\ forall pc t, o <> BReti pc t) ops ->
    Forall (fun e => snd e <> ALine true) l /\
    forall pc' t' p3 y, dev_do port (BReti pc' t') p2 = Some (p3, y) -> pio_next p3 = pio_next p2 /\ pio_ieo p3 = false.
Proof. exact @serviced. Qed.
(** The port panics on the control words it does not know and on nothing else. *)
Theorem C54_panics : forall S R D slurp flush (dv : dev D) o (p : pio (S * bool) (R * option Z) D),
  (forall o d, dev_do dv o d <> None) -> byte_op o -> op_time o + 3 < 2 ^ 32 ->
  (dev_do (ral_pio slurp flush dv) o p = None <-> exists v, (word_to 9 o = Some v \/ word_to 11 o = Some v) /\ unsupported v).
Proof. exact @panics. Qed.
Definition C54_all := (@C54_input, @C54_next, @C54_retry, @C54_output, @C54_willing, @C54_output_refuted, @C54_masked, @C54_request, @C54_sent, @C54_service, @C54_panics).
Print Assumptions C54_all.

(** Both channels with interrupts; the terminal sends 65 (before they are on) and 66 and refuses the first attempt at each byte. *)
Definition letters (l : list Z) : list Z * option Z := match l with b :: l => (l, Some b) | [] => ([], None) end.
Definition grumpy (v : Z) (r : bool) : bool * bool := (negb r, r).
Definition C54_session : list bop :=
  [BReset 0; BOut 9 0x10 1; BOut 9 0x4F 2; BOut 9 0x83 3; BOut 11 0x20 4; BOut 11 0x0F 5; BOut 11 0x83 6; BIrq 7; BM1 8;
   BIn 8 10; BIrq 12; BAck 0 13; BOut 10 1 14; BIrq 15; BIn 8 16; BReti 0 20; BIrq 21; BAck 0 22; BOut 10 2 26; BReti 0 27; BIrq 28; BIn 8 30].
Example C54_ex :
  match dev_ops (ral_pio (taped letters) (taped_sink grumpy) terminator) C54_session (ral_pio_new ([65; 66], []) (false, []) tt) with
  | Some (p, l) =>
      (a_reads l, snd (fst (ch_dev (pio_a p))), b_writes C54_session, snd (fst (ch_dev (pio_b p))), held (snd (ch_dev (pio_b p))),
       map snd (filter (fun e => match fst e with BIrq _ | BAck _ _ => true | _ => false end) l))
      = ([65; 66; 66], [65; 66], [1; 2], [1; 2], [],
         [ALine false; ALine true; AByte 0x10; ALine false; ALine true; AByte 0x20; ALine true])
  | None => False
  end.
Proof. vm_compute. reflexivity. Qed.
