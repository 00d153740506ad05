(** C57. *)
From Coq Require Import ZArith Bool List Lia.
From Verif Require Import Base Parse Cpu Flavours Prog Trace Exec Range Clock Demo SpecState SpecIsa IsaRun RalMemory RalBus RalRunner SpecRal SpecRunner
  RalPio SpecPio RalPioProofs RalCtc SpecCtc SpecChain PropRal PropChain SpecDrive NoAckRun RalDrive RalDriveChain RalRunnerProofs.
Import ListNotations.
Open Scope Z_scope.

(** On any host an interrupt is acknowledged only right after its line was seen active, with nothing between but the clock. *)
Theorem C57_acknowledged : forall Q (FL : Flavour Q) TS WB RB BS CK (Hs : host TS WB RB BS CK) da fuel (c : cpu Q) b k c' r b' k' l1 p t v w l2, wf c ->
  runl Hs (execute_with_limit FL da fuel c) b k = Some (Some (c', r), b', k', l1 ++ EIrqData p t v w :: l2) ->
  exists l0 t0, l1 = l0 ++ [KTs t0; EIsIrq t0 true; KIrq p t].
Proof. intros Q FL TS WB RB BS CK Hs da fuel c b k c' r b' k' l1 p t v w l2. exact (acknowledged FL Hs da fuel c b k c' r b' k' l1 p t v w l2). Qed.
(** The devices of the machine hear exactly the processor's calls that concern them, in this order, with the times of its clock going
    forwards, and each call is answered by them. *)
Theorem C57_tells : forall Q T D (FL : Flavour Q) (ch : SpecIsa.chip T) absq, models FL ch absq ->
  forall (dv : dev D) da hz lim fuel c m d k c' r m' d' k' l, waitless dv -> wf c -> 0 <= tc_cur k -> tc_cur k < 2 ^ 32 -> lim + 22 < 2 ^ 32 ->
  runl (ral_host 255 124 dv lim) (execute_with_limit FL da fuel c) (Some (m, d)) k = Some (Some (c', r), Some (m', d'), k', l) ->
  exists la, tells l la /\ dev_ops dv (map fst la) d = Some (d', la) /\ in_time (tc_cur k) (map fst la) /\ clock (tc_cur k) (map fst la) <= tc_cur k' /\
    granted false la /\ Forall (proper hz) (map fst la).
Proof.
  intros Q T D FL ch absq M dv da hz lim fuel c m d k c' r m' d' k' l WL Wc K0 K1 HL E.
  destruct (leg_told FL ch absq (models_ok _ _ _ M) da dv hz WL lim fuel c m d k c' r m' d' k' l (tc_cur k) Wc (conj K0 K1) HL (conj K0 (Z.le_refl _)) E) as (la & t' & W & LE & TL).
  destruct W as [W1 W2 W3 W4 W5]. exists la. rewrite W3. split; [exact TL|]. split; [exact W1|]. split; [exact W2|]. split; [exact LE|]. split; [exact W4|]. now apply Forall_map.
Qed.
(** And over any number of frames, with the NMI and the reset button pressed between them: all that the devices go through from the start
    is a reset and what follows in the order of time, each second taken back once, the times never too large; there is one end of frame
    for each frame, and no reset but the button's. *)
Theorem C57_machine : forall Q T D (FL : Flavour Q) (ch : SpecIsa.chip T) absq, models FL ch absq ->
  forall (dv : dev D) da hz ext fhz r bs fuel c m d w w', waitless dv -> runner_new ext fhz hz = Some r -> 0 <= fhz -> 33 <= hz -> 11 <= hz / fhz -> 2 * hz + hz / fhz + 33 < 2 ^ 32 ->
  runner_start FL dv (mkWorld r c (Some (m, d))) = Done w -> session FL da dv fuel bs w = Done w' ->
  exists m' d' ops la, w_bus w' = Some (m', d') /\ dev_ops dv (BReset hz :: ops) d = Some (d', la) /\ in_time 0 (BReset hz :: ops) /\ clock hz ops = tc_cur (rn_clock (w_run w')) /\
    granted false la /\ Forall (proper hz) (BReset hz :: ops) /\ frame_ends ops = length bs /\ resets ops = resets_in bs.
Proof.
  intros Q T D FL ch absq M dv da hz ext fhz r bs fuel c m d w w' WL. exact (machine_told FL ch absq (models_ok _ _ _ M) da dv hz WL ext fhz r bs fuel c m d w w').
Qed.
(** The PIO and the CTC ask for no wait states. *)
Theorem C57_waitless : forall S R D slurp flush (dv : dev D), waitless dv -> waitless (ral_ctc (@ral_pio S R D slurp flush dv)).
Proof. intros S R D slurp flush dv WL. exact (ctc_waitless _ (pio_waitless slurp flush dv WL)). Qed.
(** So whatever program a machine with these two runs, their services nest, and the program reads what the terminal sent, every byte of it,
    in order, unless it changes the mode of the channel or the machine is reset. *)
Theorem C57_chain : forall Q T (FL : Flavour Q) (ch : SpecIsa.chip T) absq, models FL ch absq ->
  forall S R slurp flush da hz ext fhz r bs fuel c m ext2 s0 r0 p w w',
  let chain := ral_ctc (ral_pio (S := S * list Z) (R := R) (taped slurp) flush terminator) in
  runner_new ext fhz hz = Some r -> 0 <= fhz -> 33 <= hz -> 11 <= hz / fhz -> 2 * hz + hz / fhz + 33 < 2 ^ 32 -> ral_ctc_new ext2 (ral_pio_new (s0, []) r0 tt) = Some p ->
  runner_start FL chain (mkWorld r c (Some (m, p))) = Done w -> session FL da chain fuel bs w = Done w' ->
  exists m' p' ops la, w_bus w' = Some (m', p') /\ dev_ops chain (BReset hz :: ops) p = Some (p', la) /\ nested [] la (served p') /\
    (resets_in bs = 0%nat -> (forall o v, In o ops -> word_to 9 o = Some v -> mode_word v = false) ->
     exists first, heard first (snd (fst (ch_dev (pio_a (ct_next p'))))) (a_reads la)).
Proof.
  intros Q T FL ch absq M S R slurp flush da hz ext fhz r bs fuel c m ext2 s0 r0 p w w' chain N F0 HZ HF HT NP ES E.
  destruct (machine_chain FL ch absq (models_ok _ _ _ M) slurp flush terminator (proj1 (terminator_polite 0 0)) da hz ext fhz r bs fuel c m p w w' N F0 HZ HF HT ES E)
    as (m' & p' & ops & la & B & O & NE & HR).
  rewrite (new_served _ _ _ _ _ NP) in NE. assert (TP : snd (fst (ch_dev (pio_a (ct_next p)))) = []) by (unfold ral_ctc_new in NP; destruct (line_new ext2); [|discriminate NP]; injection NP as <-; reflexivity).
  rewrite TP in HR. exists m', p', ops, la. split; [exact B|]. split; [exact O|]. split; [apply NE; intros t d d' b0 H; now injection H as _ <-|].
  intros R0 MW. destruct (HR R0 MW) as (first & sent & TE & HE). exists first. rewrite TE. exact HE.
Qed.
Definition C57_all := (@C57_acknowledged, @C57_tells, @C57_machine, @C57_waitless, @C57_chain).
Print Assumptions C57_all.

(** LD SP,6000h; IM 1; LD A,83h; OUT (9),A; EI; HALT; JR to the HALT; at 38h IN A,(8); LD (5000h),A; EI; RETI; at 66h RETN. *)
Definition ear_rom : list Z :=
  [0x31; 0x00; 0x60; 0xED; 0x56; 0x3E; 0x83; 0xD3; 0x09; 0xFB; 0x76; 0x18; 0xFD] ++ repeat 0 (0x38 - 13) ++
  [0xDB; 0x08; 0x32; 0x00; 0x50; 0xFB; 0xED; 0x4D] ++ repeat 0 (0x66 - 0x40) ++ [0xED; 0x45].
(** Three letters: the tape at the end, the last of them in the memory, and the processor waiting at the HALT. *)
Definition listen (bs : list button) : outcome (list Z * list level * option (list Z) * bool) :=
  match runner_new 5 10 1030, mem_new ear_rom 16, ral_ctc_new 10 (ral_pio_new (S := list Z * list Z) (R := unit) ([72; 73; 33], []) tt tt) with
  | Some r, Some m, Some p =>
      let chain := ral_ctc (ral_pio (taped one_letter) (fun _ r => (r, true)) terminator) in
      match runner_start NMOS chain (mkWorld r (nm 0) (Some (m, p))) with
      | Done w => match session NMOS true chain 64 bs w with
          | Done w => match w_bus w with Some (m, p) => Done (snd (fst (ch_dev (pio_a (ct_next p)))), served p, option_map snd (mem_run [MRead 0x5000] m), halt (w_cpu w)) | None => Panicked end
          | More => More
          | Panicked => Panicked
          end
      | _ => Panicked
      end
  | _, _, _ => Panicked
  end.
Example C57_ex : listen [NoButton; NmiButton; NoButton; NoButton; NoButton] = Done ([72; 73; 33], [], Some [33], true).
Proof. vm_compute. reflexivity. Qed.
Example C57_ex_early : listen [NoButton; NmiButton] = Done ([72; 73; 33], [Port], Some [33], false).
Proof. vm_compute. reflexivity. Qed.
