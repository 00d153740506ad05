(** C56. *)
From Coq Require Import ZArith Bool List Lia.
From Verif Require Import Base RalBus RalPio SpecPio RalPioProofs RalCtc SpecCtc RalCtcChip SpecChain RalChain.
Import ListNotations.
Open Scope Z_scope.

(** The CTC goes before the PIO and may interrupt its service, not the other way round, and neither interrupts itself; a RETI ends the
    service that began last.  Whatever happens meanwhile, if only each acknowledge follows an active line. *)
Theorem C56_nested : forall S R D slurp flush (dv : dev D), (forall t d d' b, dv_is_irq dv t d = Some (d', b) -> b = false) ->
  forall ops (p p' : ctc (line * line) (pio (S * bool) (R * option Z) D)) l,
  dev_ops (ral_ctc (ral_pio slurp flush dv)) ops p = Some (p', l) -> granted false l -> nested (served p) l (served p').
Proof. intros S R D slurp flush dv SIL ops p p' l E G. exact (served_nested _ _ _ _ slurp flush dv SIL ops false p p' l E G ltac:(discriminate)). Qed.
(** So there are never more than two acknowledges without their RETI, and then the line is off. *)
Theorem C56_two : forall S R D slurp flush (dv : dev D), (forall t d d' b, dv_is_irq dv t d = Some (d', b) -> b = false) ->
  forall ext s r d ops (p p' : ctc (line * line) (pio (S * bool) (R * option Z) D)) l l1 t b l2, ral_ctc_new ext (ral_pio_new s r d) = Some p ->
  dev_ops (ral_ctc (ral_pio slurp flush dv)) ops p = Some (p', l) -> granted false l -> l = l1 ++ (BIrq t, ALine b) :: l2 ->
  (open 0 l1 <= 2)%nat /\ (open 0 l1 = 2%nat -> b = false).
Proof.
  intros S R D slurp flush dv SIL ext s r d ops p p' l l1 t b l2 N E G L.
  assert (SV : served p = []) by (unfold ral_ctc_new in N; destruct (line_new ext); [|discriminate]; injection N as <-; reflexivity).
  pose proof (served_nested _ _ _ _ slurp flush dv SIL ops false p p' l E G ltac:(discriminate)) as H. rewrite SV in H. exact (at_most_two [] l _ l1 t b l2 H (or_introl eq_refl) L).
Qed.
(** The answer to an acknowledge is the vector of the first request in the order of priority; this request is taken back and no other. *)
Theorem C56_first : forall S R D slurp flush (dv : dev D), (forall t d d' b, dv_is_irq dv t d = Some (d', b) -> b = false) ->
  forall (p p1 p2 : ctc (line * line) (pio (S * bool) (R * option Z) D)) t pc t' x, let chain := ral_ctc (ral_pio slurp flush dv) in
  let flags p := map (fun a => snd (fst a)) (asks p) in
  dev_do chain (BIrq t) p = Some (p1, ALine true) -> dev_do chain (BAck pc t') p1 = Some (p2, x) ->
  exists i lv v, nth_error (asks p1) i = Some (lv, true, v) /\ x = AByte v /\ flags p2 = repeat false (Datatypes.S i) ++ skipn (Datatypes.S i) (flags p1) /\
    firstn i (flags p1) = repeat false i /\ served p2 = lv :: served p.
Proof.
  intros S R D slurp flush dv SIL p p1 p2 t pc t' x chain flags E1 E2. destruct (line_eager _ _ _ _ slurp flush dv SIL t p p1 E1) as (EG & SV & _). rewrite <- SV.
  exact (ack_eager _ _ _ _ slurp flush dv pc t' p1 p2 x EG E2).
Qed.
(** Two RETIs, as the ROM kernel does before its menu, leave nothing in service. *)
Theorem C56_clear : forall S R D slurp flush (dv : dev D) (p p' : ctc (line * line) (pio (S * bool) (R * option Z) D)) pc1 t1 pc2 t2 l,
  dev_ops (ral_ctc (ral_pio slurp flush dv)) [BReti pc1 t1; BReti pc2 t2] p = Some (p', l) -> served p' = [].
Proof. intros S R D slurp flush dv p p' pc1 t1 pc2 t2 l. exact (both_ended _ _ _ _ slurp flush dv p p' pc1 t1 pc2 t2 l). Qed.
(** Whatever is behind the CTC sees all that happens but the ports of the CTC and what it answers itself about interrupts, and its answers
    go to the CPU unchanged: what is true of a device alone (C54) is true of it in the chain. *)
Theorem C56_behind : forall D (dv : dev D) ops (p p' : ctc (line * line) D) l, dev_ops (ral_ctc dv) ops p = Some (p', l) ->
  exists l', passes l l' /\ dev_ops dv (map fst l') (ct_next p) = Some (ct_next p', l').
Proof. intros D dv ops p p' l E. exact (proj2 (ops_passed _ _ _ _ dv ops p p' l E)). Qed.
Theorem C56_input : forall S R D slurp flush (dv : dev D) o x (p0 p p' : ctc (line * line) (pio ((S * list Z) * bool) (R * option Z) D)) ops l,
  let chain := ral_ctc (ral_pio (taped slurp) flush dv) in
  (exists s r d, ct_next p = ral_pio_new s r d) \/
    dev_do chain o p0 = Some (p, x) /\ byte_op o /\ (is_reset o = true \/ exists v, word_to 9 o = Some v /\ selects 1 v) ->
  dev_ops chain ops p = Some (p', l) -> Forall (fun o => is_reset o = false /\ forall v, word_to 9 o = Some v -> mode_word v = false) ops ->
  exists first sent, snd (fst (ch_dev (pio_a (ct_next p')))) = snd (fst (ch_dev (pio_a (ct_next p)))) ++ sent /\ heard first sent (a_reads l).
Proof. intros S R D slurp flush dv o x p0 p p' ops l. exact (chain_input _ _ _ _ slurp flush dv o x p0 p p' ops l). Qed.
(** For the output the vectors of the CTC must be away from the one of the PIO's channel B. *)
Theorem C56_output : forall S R D slurp flush (dv : dev D) o x (p0 p p' : ctc (line * line) (pio (S * bool) ((R * list Z) * option Z) D)) ops l,
  let chain := ral_ctc (ral_pio slurp (taped_sink flush) dv) in let vb := ch_vec (pio_b (ct_next p0)) in
  dev_do chain o p0 = Some (p, x) -> (exists v, word_to 11 o = Some v /\ selects 0 v) -> byte_op o ->
  snd (ch_dev (pio_b (ct_next p0))) = None -> ch_int (pio_b (ct_next p0)) = false -> ch_vec (pio_a (ct_next p0)) <> vb -> Z.land (ct_vec p0) 0xF8 <> Z.land vb 0xF8 ->
  (forall pc t d d' y, dv_irq_data dv pc t d = Some (d', y) -> fst y <> vb) ->
  dev_ops chain ops p = Some (p', l) -> Forall plain ops -> Forall (away_from vb) ops -> paced vb true l ->
  exists sent, snd (fst (ch_dev (pio_b (ct_next p')))) = snd (fst (ch_dev (pio_b (ct_next p)))) ++ sent /\ b_writes ops = sent ++ held (snd (ch_dev (pio_b (ct_next p')))).
Proof. intros S R D slurp flush dv o x p0 p p' ops l. exact (chain_output _ _ _ _ slurp flush dv o x p0 p p' ops l). Qed.
(** A byte from the terminal makes a request that is not lost behind the CTC: the line is active once nothing is served, and the PIO is
    answered if no channel of the CTC asks. *)
Theorem C56_request : forall S R D slurp flush (dv : dev D) o0 x0 (p0 p1 p2 p3 p4 p5 : ctc (line * line) (pio ((S * list Z) * bool) (R * option Z) D))
    ops l o x ops2 l2 pc1 t1 pc2 t2 t3 l3,
  let chain := ral_ctc (ral_pio (taped slurp) flush dv) in
  dev_do chain o0 p0 = Some (p1, x0) -> byte_op o0 -> turns_on 8 o0 -> dev_ops chain ops p1 = Some (p2, l) ->
  Forall (fun o => byte_op o /\ ~ turns_off 8 o) ops -> (exists t, In (BM1 t) ops) ->
  dev_do chain o p2 = Some (p3, x) -> snd (fst (ch_dev (pio_a (ct_next p3)))) <> snd (fst (ch_dev (pio_a (ct_next p2)))) ->
  dev_ops chain ops2 p3 = Some (p4, l2) -> Forall (fun o => byte_op o /\ ~ turns_off 8 o /\ (forall pc t, o <> BAck pc t) /\ forall v, word_to 9 o = Some v -> vector_word v = false) ops2 ->
  dev_ops chain [BReti pc1 t1; BReti pc2 t2; BIrq t3] p4 = Some (p5, l3) -> map snd l3 = [ANone; ANone; ALine true] /\
  forall pc t p6 y, dev_do chain (BAck pc t) p5 = Some (p6, y) -> (forall v, ~ In (Timers, true, v) (asks p5)) -> y = AByte (ch_vec (pio_a (ct_next p2))).
Proof.
  intros S R D slurp flush dv o0 x0 p0 p1 p2 p3 p4 p5 ops l o x ops2 l2 pc1 t1 pc2 t2 t3 l3.
  exact (chain_request _ _ _ _ slurp flush dv o0 x0 p0 p1 p2 p3 p4 p5 ops l o x ops2 l2 pc1 t1 pc2 t2 t3 l3).
Qed.
Definition C56_all := (@C56_nested, @C56_two, @C56_first, @C56_clear, @C56_behind, @C56_input, @C56_output, @C56_request).
Print Assumptions C56_all.

(** Timers 1 and 3 (16 * 4 and 16 * 5 T-states) and the terminal, which sends 65: channel A of the PIO is served first, then interrupted by timer 1;
    when both have ended timer 3 comes. *)
Definition one_letter (l : list Z) : list Z * option Z := match l with b :: l => (l, Some b) | [] => ([], None) end.
Definition C56_session : list bop :=
  [BReset 0; BOut 4 0x40 1; BOut 9 0x10 2; BOut 9 0x4F 3; BOut 9 0x83 4; BOut 11 0x20 5; BOut 5 0x87 6; BOut 5 4 7; BOut 7 0x87 8; BOut 7 5 9; BM1 10; BIrq 11; BAck 0 12;
   BIn 8 13; BIrq 20; BM1 80; BIrq 81; BAck 0 82; BIrq 100; BReti 0 101; BReti 0 102; BIrq 103; BAck 0 104; BReti 0 105].
Example C56_ex :
  match ral_ctc_new 1000 (ral_pio_new (S := list Z * list Z) (R := unit) ([65], []) tt tt) with
  | Some p =>
      match dev_ops (ral_ctc (ral_pio (taped one_letter) (fun _ r => (r, true)) terminator)) C56_session p with
      | Some (p, l) =>
          (map snd (filter (fun e => match fst e with BIrq _ | BAck _ _ => true | _ => false end) l), a_reads l, served p)
          = ([ALine true; AByte 0x10; ALine false; ALine true; AByte 0x42; ALine false; ALine true; AByte 0x46], [65], [])
      | None => False
      end
  | None => False
  end.
Proof. vm_compute. reflexivity. Qed.
Example C56_ex_granted :
  match ral_ctc_new 1000 (ral_pio_new (S := list Z * list Z) (R := unit) ([65], []) tt tt) with
  | Some p => match dev_ops (ral_ctc (ral_pio (taped one_letter) (fun _ r => (r, true)) terminator)) C56_session p with Some (_, l) => granted false l /\ open 0 (firstn 19 l) = 2%nat | None => False end
  | None => False
  end.
Proof. vm_compute. tauto. Qed.
