(** The disassembler lists the whole of the memory given. *)
From Coq Require Import ZArith Bool String List Lia.
From Verif Require Import Base Flags Ops Parse Cpu Flavours Prog Trace Internal Instr Exec Range Clock SpecAlu SpecState SpecIsa SpecCycles
  SpecInt SpecLog SpecDebug StampRun IsaLink IsaControl IsaRun Steps Control Reach SafeRun DbgRun FormatProofs Format SpecFormat Disasm SpecDisasm.
Import ListNotations.
Open Scope string_scope.
Open Scope list_scope.
Open Scope Z_scope.
Ltac Zify.zify_post_hook ::= Z.div_mod_to_equations.

(** ** Reading through [Mem] *)
Definition rdm (b : Z * list Z) (a : Z) : Z := nth (Z.to_nat (u16 (a - fst b))) (snd b) 0xFF.
Lemma nth_byteF l n : Forall byte l -> byte (nth n l 0xFF).
Proof. intros H. revert n. induction H as [|x l Hx Hl IH]; intros [|n]; cbn; try assumption; try (unfold byte; lia). apply IH. Qed.
Lemma rdm_byte b a : Forall byte (snd b) -> byte (rdm b a).
Proof. apply nth_byteF. Qed.
Definition ro (b : Z * list Z) (e : ev Z unit unit) : Prop :=
  Forall (fun av => snd av = rdm b (fst av)) (code_reads e) /\ match e with EIsIrq _ x => x = false | _ => True end.
Lemma mem_ro {A} (p : prog Z unit unit A) : forall b k a b' k' l, Forall byte (snd b) ->
  runl mem_host p b k = Some (a, b', k', l) -> b' = b /\ Forall (ro b) l.
Proof.
  induction p; intros b0 k0 a0 b' k' l0 HB E; cbn [runl] in E.
  1: { injection E as <- <- <- <-. split; [reflexivity|constructor]. }
  1: discriminate.
  all: cbv zeta in E; cbn [mem_host ts_host h_is_past_limit h_add_irq h_add_no_mreq h_add_m1 h_add_mreq h_add_io h_add_wait h_as_ts h_read_io h_write_io
      h_is_irq h_irq_data h_reti h_read_mem h_read_mem16 h_read_opcode h_write_mem h_read_debug
      ts_add_irq ts_add_io ts_add_mreq ts_add_m1 dflt_read_io dflt_write_io dflt_is_irq dflt_irq_data dflt_reti fst snd] in E.
  all: apply cons_log_inv in E; destruct E as (l' & E & ->).
  all: first [ apply H in E | apply IHp in E ]; [|exact HB].
  all: destruct E as [E1 E2]; split; [exact E1|]; constructor; [|exact E2].
  all: unfold ro; cbn [code_reads]; split; try exact I; try reflexivity; repeat constructor; cbn [fst snd].
  all: try (apply u8_byte_id; now apply rdm_byte).
  - change (nth _ _ _) with (rdm b0 addr) at 1. change (nth _ _ _) with (rdm b0 (u16 (addr + 1))).
    now apply rd16_split; apply rdm_byte.
  - change (nth _ _ _) with (rdm b0 addr) at 1. change (nth _ _ _) with (rdm b0 (u16 (addr + 1))).
    now apply rd16_split; apply rdm_byte.
Qed.
Lemma addrs_seq p n : word p -> addrs p n = map (fun i => (p + Z.of_nat i) mod 65536) (seq 0 n).
Proof.
  intros Hp. assert (G : forall k, addrs ((p + Z.of_nat k) mod 65536) n = map (fun i => (p + Z.of_nat i) mod 65536) (seq k n)).
  { induction n as [|n IH]; intros k; [reflexivity|]. cbn [addrs seq map]. f_equal. rewrite <- IH. f_equal. lia. }
  rewrite <- G. f_equal. unfold word in Hp. lia.
Qed.
Lemma debugs_silent {TS WB RB} (l : list (ev TS WB RB)) : Forall silent l -> debugs l = [].
Proof. induction 1 as [|e l He Hl IH]; [reflexivity|]. destruct e; try exact IH. destruct He. Qed.
Lemma debugs_app {TS WB RB} (l1 l2 : list (ev TS WB RB)) : debugs (l1 ++ l2) = debugs l1 ++ debugs l2.
Proof. induction l1 as [|e l IH]; [reflexivity|]. destruct e; cbn; rewrite ?IH; reflexivity. Qed.
Lemma reported_debugs {TS WB RB} first p (l : list (ev TS WB RB)) d : reported first p l d -> debugs l = [d].
Proof.
  intros (l1 & l2 & rd & -> & F & S & _). rewrite debugs_app. cbn [debugs].
  rewrite (debugs_silent l2 S), (debugs_silent l1); [reflexivity|]. refine (Forall_impl _ _ F). intros e. now destruct e.
Qed.
(** What is read by an instruction at [p] are the first bytes of the slice. *)
Lemma reported_code first p rest (l : list (ev Z unit unit)) d : word p -> reported first p l d -> Forall (ro (p, rest)) l ->
  (List.length (dcode d) <= 4)%nat ->
  exists n, dcode d = first ++ map (fun i => nth i rest 0xFF) (seq 0 n).
Proof.
  intros Hp (l1 & l2 & rd & -> & _ & _ & H4 & H5 & H6 & _) HR HL. exists (List.length rd).
  assert (Hn : (List.length rd <= 4)%nat) by (rewrite H6, app_length, map_length in HL; lia).
  rewrite H6. f_equal. apply Forall_app in HR as [HR _].
  assert (HV : Forall (fun av => snd av = rdm (p, rest) (fst av)) rd).
  { rewrite <- H4. clear -HR. induction HR as [|e l [He _] _ IH]; [constructor|]. cbn [flat_map]. apply Forall_app. split; assumption. }
  assert (EV : map snd rd = map (rdm (p, rest)) (map fst rd)).
  { clear -HV. induction HV as [|x l Hx _ IH]; [reflexivity|]. cbn [map]. f_equal; assumption. }
  rewrite EV, H5, (addrs_seq p _ Hp), map_map. apply map_ext_in. intros i Hi. apply in_seq in Hi.
  unfold rdm. cbn [fst snd]. f_equal. unfold u16, word in *. lia.
Qed.

Section Disasm.
Context {Q T : Type}.
Variables (FL : Flavour Q) (ch : chip T) (absq : Q -> T).
Hypothesis OK : chip_ok FL ch absq.
Variable q0 : Q.
Implicit Types c : cpu Q.

Lemma first_op_code (l : list (ev Z unit unit)) p rest code : first_op l p code -> Forall (ro (p, rest)) l -> code = nth 0 rest 0xFF.
Proof.
  intros (l0 & i & t & l1 & -> & _) H. apply Forall_app in H as [_ H]. apply Forall_cons_iff in H as [[H _] _].
  apply Forall_cons_iff in H as [H _]. cbn [fst snd] in H. rewrite H. unfold rdm. cbn [fst snd]. rewrite Z.sub_diag. reflexivity.
Qed.
Lemma buses_op (l : list (ev Z unit unit)) b i v a : In (VOp a i v) (buses l) -> Forall (ro b) l -> v = rdm b a.
Proof.
  intros Hin HR. unfold buses in Hin. apply in_flat_map in Hin as (e & He & Hin). rewrite Forall_forall in HR. destruct (HR e He) as [HE _].
  destruct e; cbn [bus1 In] in Hin; decompose [or] Hin; try contradiction; try discriminate.
  match goal with H : VOp _ _ _ = _ |- _ => injection H as <- <- <- end. cbn [code_reads] in HE. now apply Forall_cons_iff in HE.
Qed.
Lemma mem_step c rest k code rest' : wf c -> halt c = false -> Forall byte rest -> rest = code :: rest' ->
  exists c' x k' l, runl mem_host (execute_next FL true c) (pc c, rest) k = Some ((c', x), (pc c, rest), k', l) /\
    wf c' /\ prefix c' = pfx_of code /\ halt c' = (code =? 0x76) /\
    if is_prefix code then debugs l = []
    else exists d n, debugs l = [d] /\ dprefix d = used_prefix (prefix c) code /\ well_described d /\
      dcode d = pbyte (dprefix d) ++ map (fun i => nth i rest 0xFF) (seq 0 n) /\
      dpc d = (pc c - Z.of_nat (List.length (pbyte (dprefix d)))) mod 65536.
Proof.
  intros Hw Hh HB ER.
  destruct (wpl_run mem_host _ _ (pc c, rest) k (wpl_and _ _ _ (execute_next_int_rep FL c Hw) (execute_next_all FL c Hw))) as ([c' x] & b' & k' & l & E & H & _).
  destruct (mem_ro _ (pc c, rest) _ _ _ _ _ HB E) as [-> HR].
  assert (NI : forall t l', l <> KTs t :: EIsIrq t true :: l').
  { intros t l' ->. apply Forall_cons_iff in HR as [_ HR]. apply Forall_cons_iff in HR as [[_ HR] _]. discriminate. }
  exists c', x, k', l. split; [exact E|].
  destruct H as [(t & l' & H & _)|H]; [now apply NI in H|]. rewrite Hh in H. destruct H as (code' & Hc & HF & H).
  assert (EC := first_op_code _ _ _ _ HF HR). rewrite ER in EC. cbn [nth] in EC. subst code'.
  destruct (runs_at _ _ _ _ _ _ _ _ _ _ _ (execute_next_follows FL ch absq OK true c Hw) E) as (D & W & o & _ & HA).
  cbn [fst snd] in W, HA.
  assert (GC : prefix c' = pfx_of code /\ halt c' = (code =? 0x76)).
  { apply next_cases in HA; [|exact D]. destruct HA as [bl' _ EB _ _|HX _ _ _ _|ir v bl' cl' _ EB _ HV HD' HE].
    - exfalso. assert (HI : In (VIrq true) (buses l)) by (rewrite EB; now left).
      unfold buses in HI. apply in_flat_map in HI as (e & He & HI). rewrite Forall_forall in HR. destruct (HR e He) as [_ HE].
      destruct e; cbn [bus1 In] in HI; decompose [or] HI; try contradiction; try discriminate.
      match goal with H : VIrq _ = _ |- _ => injection H as -> end. discriminate.
    - cbn [abs aHALT] in HX. congruence.
    - assert (HV' : v = code).
      { assert (HI : In (VOp (aPC (abs absq c)) ir v) (buses l)) by (rewrite EB; apply in_or_app; right; now left).
        rewrite (buses_op _ _ _ _ _ HI HR). unfold rdm. cbn [abs aPC fst snd]. rewrite Z.sub_diag, ER. reflexivity. }
      subst v. unfold exec in HE. apply exec_control in HE; [|assumption..]. destruct HE as (P1 & _ & P3 & _). split; [exact P1|exact P3]. }
  split; [exact W|]. destruct GC as [GC1 GC2]. split; [exact GC1|]. split; [exact GC2|].
  destruct (is_prefix code); [now apply debugs_silent|]. destruct H as (d & H1 & H2 & H3).
  pose proof (well_described_len d H3) as HL.
  rewrite <- H2 in H1. destruct (reported_code _ _ _ _ _ (wf_pc _ Hw) H1 HR ltac:(lia)) as (n & Hn).
  exists d, n. split; [now apply (reported_debugs _ _ _ _ H1)|]. split; [exact H2|]. split; [exact H3|]. split; [exact Hn|].
  destruct H1 as (l1 & l2 & rd & _ & _ & _ & _ & _ & _ & H7). exact H7.
Qed.
Lemma mem_idle c b k : halt c = true -> prefix c = None ->
  exists x k' l, runl mem_host (execute_next FL true c) b k = Some ((inc_r c, x), b, k', l) /\ debugs l = [].
Proof.
  intros Hh Hp. unfold execute_next, test_irq. destruct (is_irq_allowed c); cbn [runl mem_host ts_host h_as_ts h_is_irq dflt_is_irq h_add_m1 ts_add_m1];
    rewrite ?Hh; cbn; eexists _, _, _; split; reflexivity.
Qed.
(** The pending prefix after the bytes [g]. *)
Definition pend (g : list Z) : option Prefix := match g with [] => None | _ => pfx_of (last g 0) end.
Definition prefixes (g : list Z) : Prop := Forall (fun b => is_prefix b = true) g.
Lemma pend_snoc g b : pend (g ++ [b]) = pfx_of b.
Proof. unfold pend. rewrite last_last. destruct g; reflexivity. Qed.
Lemma pend_some g p : pend g = Some p -> exists g' b, g = g' ++ [b] /\ pfx_of b = Some p.
Proof.
  intros H. destruct g as [|b g]; [discriminate|]. destruct (exists_last (l:=b :: g)) as (g' & b' & E); [discriminate|].
  rewrite E in H. rewrite pend_snoc in H. exists g', b'. split; assumption.
Qed.
Lemma pfx_pbyte b p : pfx_of b = Some p -> pbyte (Some p) = [b].
Proof.
  unfold pfx_of. destruct (Z.eqb_spec b 0xDD) as [->|]; [intros [= <-]; reflexivity|].
  destruct (Z.eqb_spec b 0xFD) as [->|]; [intros [= <-]; reflexivity|discriminate].
Qed.
Lemma pfx_is_prefix b : is_prefix b = match pfx_of b with Some _ => true | None => false end.
Proof. unfold is_prefix, pfx_of. destruct (b =? 0xDD), (b =? 0xFD); reflexivity. Qed.
Lemma pend_has g : prefixes g -> pend g <> None <-> nonempty g = true.
Proof.
  intros H. destruct g as [|b g]; [cbn; split; congruence|]. split; [reflexivity|]. intros _.
  destruct (exists_last (l:=b :: g)) as (g' & b' & E); [discriminate|]. rewrite E in H |- *. rewrite pend_snoc.
  apply Forall_app in H as [_ H]. apply Forall_cons_iff in H as [H _]. rewrite pfx_is_prefix in H. destruct (pfx_of b'); congruence.
Qed.
Lemma map_nth_seq (rest : list Z) n x : (n <= List.length rest)%nat -> map (fun i => nth i rest x) (seq 0 n) = firstn n rest.
Proof.
  revert n. induction rest as [|b rest IH]; intros [|n] H; try reflexivity; cbn in H; [lia|].
  cbn [seq map firstn nth]. f_equal. rewrite <- seq_shift, map_map. cbn [nth]. apply IH. lia.
Qed.

Lemma loop_listing n : forall rest done g c k pc0, (List.length rest <= n)%nat -> Forall byte rest -> wf c -> prefixes g ->
  prefix c = pend g -> (halt c = true -> g = []) -> word pc0 ->
  exists rs, listing ((pc0 + Z.of_nat (List.length done) - Z.of_nat (List.length g)) mod 65536) (g ++ rest) rs /\
    forall S E (debug : S -> CpuDebug -> S * option E) s fuel, (2 * n + 2 <= fuel + (if halt c then 0 else 1))%nat ->
      disasm_loop FL debug fuel pc0 (done ++ rest) c (List.length done) k s = Some (feed debug rs s).
Proof.
  induction n as [|n IH]; intros rest done g c k pc0 HL HB Hw Hg Hp Hh Hpc.
  { destruct rest; [|cbn in HL; lia]. exists []. rewrite app_nil_r. split.
    - apply (L_end _ _ g []); [now rewrite app_nil_r|exact Hg|exact I].
    - intros S E debug s [|fuel] HF; [destruct (halt c); lia|]. cbn [disasm_loop]. rewrite app_nil_r.
      rewrite (proj2 (Nat.ltb_ge _ _) (Nat.le_refl _)). reflexivity. }
  destruct rest as [|code rest'] eqn:ER.
  { exists []. rewrite app_nil_r. split.
    - apply (L_end _ _ g []); [now rewrite app_nil_r|exact Hg|exact I].
    - intros S E debug s [|fuel] HF; [destruct (halt c); lia|]. cbn [disasm_loop]. rewrite app_nil_r.
      rewrite (proj2 (Nat.ltb_ge _ _) (Nat.le_refl _)). reflexivity. }
  rewrite <- ER in *.
  assert (ND : forall c k, wf c -> prefix c = pend g -> halt c = false ->
    exists rs, listing ((pc0 + Z.of_nat (List.length done) - Z.of_nat (List.length g)) mod 65536) (g ++ rest) rs /\
    forall S E (debug : S -> CpuDebug -> S * option E) s fuel, (2 * n + 3 <= fuel)%nat ->
      disasm_loop FL debug fuel pc0 (done ++ rest) c (List.length done) k s = Some (feed debug rs s)).
  { clear c k Hw Hp Hh. intros c k Hw Hp Hh.
    set (p := u16 (pc0 + u16 (Z.of_nat (List.length done)))).
    assert (Hpw : word p) by apply u16_word'.
    assert (Ep : p = (pc0 + Z.of_nat (List.length done)) mod 65536) by (unfold p, u16; lia).
    destruct (mem_step (set_pc p c) rest k code rest' ltac:(auto with rng) Hh HB ER) as (c' & x & k' & l & E & W & P1 & P2 & H).
    change (pc (set_pc p c)) with p in *. change (prefix (set_pc p c)) with (prefix c) in H.
    assert (Hlt : (List.length done <? List.length (done ++ rest))%nat = true)
      by (apply Nat.ltb_lt; rewrite app_length, ER; cbn; lia).
    assert (Esk : skipn (List.length done) (done ++ rest) = rest) by (rewrite skipn_app, skipn_all, Nat.sub_diag; reflexivity).
    assert (STEP : forall S E (debug : S -> CpuDebug -> S * option E) s fuel,
      disasm_loop FL debug (Datatypes.S fuel) pc0 (done ++ rest) c (List.length done) k s =
      let (cursor, dbg) := fold_left on_debug (debugs l) (List.length done, None) in
          if (List.length (done ++ rest) <? cursor)%nat then Some (s, None)
          else match dbg with
               | Some d => match debug s d with
                           | (s, Some e) => Some (s, Some e)
                           | (s, None) => disasm_loop FL debug fuel pc0 (done ++ rest) c' cursor k' s
                           end
               | None => if is_after_prefix c' then disasm_loop FL debug fuel pc0 (done ++ rest) c' (cursor + 1) k' s
                         else disasm_loop FL debug fuel pc0 (done ++ rest) (reset FL c') cursor k' s
               end).
    { intros S0 E0 debug s fuel. cbn [disasm_loop]. rewrite Hlt. cbv zeta. fold p. rewrite Esk, run_runl, E. reflexivity. }
    destruct (is_prefix code) eqn:HPX.
    - (* a prefix *)
      rewrite H in STEP. cbn [fold_left] in STEP.
      rewrite pfx_is_prefix in HPX. destruct (pfx_of code) as [px|] eqn:EPX; [|discriminate].
      assert (Hh' : halt c' = false).
      { rewrite P2. unfold pfx_of in EPX. destruct (Z.eqb_spec code 0xDD) as [->|]; [reflexivity|].
        destruct (Z.eqb_spec code 0xFD) as [->|]; [reflexivity|discriminate]. }
      destruct (IH rest' (done ++ [code]) (g ++ [code]) c' k' pc0) as (rs & R1 & R2).
      + rewrite ER in HL. cbn in HL. lia.
      + rewrite ER in HB. now apply Forall_cons_iff in HB.
      + exact W.
      + apply Forall_app. split; [exact Hg|]. repeat constructor. rewrite pfx_is_prefix, EPX. reflexivity.
      + rewrite pend_snoc, EPX. exact P1.
      + congruence.
      + exact Hpc.
      + exists rs. split.
        * rewrite <- app_assoc in R1. cbn [app] in R1. rewrite ER. rewrite !app_length in R1. cbn [List.length] in R1.
          replace (pc0 + Z.of_nat (List.length done) - Z.of_nat (List.length g))
            with (pc0 + Z.of_nat (List.length done + 1) - Z.of_nat (List.length g + 1)) by lia. exact R1.
        * intros S0 E0 debug s [|fuel] HF; [lia|]. rewrite STEP.
          rewrite (proj2 (Nat.ltb_ge _ _)) by (rewrite app_length; lia).
          unfold is_after_prefix. rewrite P1. specialize (R2 S0 E0 debug s fuel).
          rewrite <- app_assoc, app_length in R2. cbn [app List.length] in R2. rewrite <- ER in R2. apply R2.
          rewrite Hh'. lia.
    - (* an instruction *)
      destruct H as (d & n0 & D0 & D1 & D2 & D3 & D4). rewrite D0 in STEP. cbn [fold_left] in STEP.
      assert (Epx : pfx_of code = None) by (rewrite pfx_is_prefix in HPX; destruct (pfx_of code); [discriminate|reflexivity]).
      pose proof (well_described_len d D2) as DL.
      destruct D2 as (c1 & bs & W1 & W2 & W3 & W4 & W5). assert (WD : well_described d) by (exists c1, bs; auto). clear W5.
      rewrite D3 in W1. apply app_inv_head in W1.
      assert (Hn0 : n0 = List.length (c1 :: bs)) by (rewrite <- W1, map_length, seq_length; reflexivity).
      assert (Hc1 : c1 = code).
      { destruct n0; [discriminate|]. cbn [seq map] in W1. injection W1 as <- _. rewrite ER. reflexivity. }
      subst c1.
      assert (Ecur : fst (on_debug (List.length done, None) d) = (List.length done + n0)%nat).
      { unfold on_debug. cbn [fst]. rewrite D3, app_length, map_length, seq_length. destruct (dprefix d) as [[]|]; cbn; lia. }
      assert (Edb : snd (on_debug (List.length done, None) d) = Some d) by reflexivity.
      destruct (on_debug (List.length done, None) d) as [cur db]. cbn [fst snd] in Ecur, Edb. subst cur db.
      destruct (Nat.leb_spec n0 (List.length rest)) as [Hfit|Hlong].
      + rewrite (map_nth_seq rest n0 0xFF Hfit) in D3.
        destruct (IH (skipn n0 rest) (done ++ firstn n0 rest) [] c' k' pc0) as (rs & R1 & R2).
        * rewrite skipn_length. cbn [List.length] in Hn0. lia.
        * rewrite <- (firstn_skipn n0 rest) in HB. now apply Forall_app in HB.
        * exact W.
        * constructor.
        * rewrite P1, Epx. reflexivity.
        * reflexivity.
        * exact Hpc.
        * assert (Hfl : List.length (firstn n0 rest) = n0) by (rewrite firstn_length; lia).
          cbn [app List.length] in R1. rewrite app_length, Hfl in R1.
          exists (d :: rs). split.
          -- assert (EU : exists g', g = g' ++ pbyte (dprefix d) /\ (g' <> [] -> dprefix d = None -> indexable code = false)).
             { rewrite D1. unfold used_prefix. destruct (indexable code) eqn:HI.
               - rewrite Hp. destruct (pend g) as [px|] eqn:EP.
                 + destruct (pend_some _ _ EP) as (g' & b & -> & Eb). exists g'. split; [now rewrite (pfx_pbyte _ _ Eb)|congruence].
                 + exists g. split; [now rewrite app_nil_r|]. intros Hne. exfalso. apply (proj2 (pend_has g Hg)); [now destruct g|exact EP].
               - exists g. split; [now rewrite app_nil_r|reflexivity]. }
             destruct EU as (g' & Eg & HU). set (lp := List.length (pbyte (dprefix d))) in *.
             assert (Elg : List.length g = (List.length g' + lp)%nat) by (rewrite Eg, app_length; reflexivity).
             assert (Elc : List.length (dcode d) = (lp + n0)%nat) by (rewrite D3, app_length, Hfl; reflexivity).
             apply (L_instr _ _ g' d (skipn n0 rest) rs).
             ++ rewrite D3, Eg, <- !app_assoc, (app_assoc (pbyte _)). rewrite <- app_assoc, firstn_skipn. reflexivity.
             ++ unfold prefixes in Hg. rewrite Eg in Hg. now apply Forall_app in Hg.
             ++ intros Hne HN. assert (Ehd : hd 0 (dcode d) = code).
                { rewrite D3, HN. cbn [pbyte app]. destruct n0; [discriminate|]. rewrite ER. reflexivity. }
                rewrite Ehd. now apply HU.
             ++ rewrite D4, Elg, Ep. unfold lp. lia.
             ++ exact WD.
             ++ replace ((_ + _ + _) mod 65536) with ((pc0 + Z.of_nat (List.length done + n0) - Z.of_nat 0) mod 65536); [exact R1|].
                rewrite Elc, Elg. lia.
          -- intros S0 E0 debug s [|fuel] HF; [lia|]. rewrite STEP.
             rewrite (proj2 (Nat.ltb_ge _ _)) by (rewrite app_length; lia). cbn [feed].
             destruct (debug s d) as [s' [e|]]; [reflexivity|]. specialize (R2 S0 E0 debug s' fuel).
             rewrite <- app_assoc, firstn_skipn, app_length, Hfl in R2. apply R2. destruct (halt c'); lia.
      + exists []. split.
        * apply (L_end _ _ g rest); [reflexivity|exact Hg|]. rewrite ER. cbn [truncated]. split; [exact HPX|].
          rewrite <- Hn0 in W4. rewrite <- ER.
          assert (Ei : (nonempty g && indexable code)%bool = match dprefix d with None => false | _ => true end).
          { rewrite D1. unfold used_prefix. destruct (indexable code); [|now rewrite andb_false_r]. rewrite andb_true_r, Hp.
            destruct (nonempty g) eqn:EN.
            - apply (pend_has g Hg) in EN. now destruct (pend g).
            - destruct (pend g) eqn:EG; [|reflexivity]. assert (pend g <> None) by congruence.
              apply (pend_has g Hg) in H. congruence. }
          rewrite Ei. replace (nth 1 rest 0xFF) with (nth 0 bs 0).
          -- lia.
          -- destruct n0 as [|[|n1]]; [lia|rewrite ER in Hlong; cbn in Hlong; lia|]. cbn [seq map] in W1. injection W1 as _ <-. reflexivity.
        * intros S0 E0 debug s [|fuel] HF; [lia|]. rewrite STEP.
          rewrite (proj2 (Nat.ltb_lt _ _)) by (rewrite app_length; lia). reflexivity. }
  destruct (halt c) eqn:Hhc.
  - (* halted by the previous instruction: one idle step, then a reset *)
    assert (Hg0 := Hh eq_refl). subst g. cbn [pend] in Hp.
    set (p := u16 (pc0 + u16 (Z.of_nat (List.length done)))) in *.
    destruct (mem_idle (set_pc p c) (p, rest) k Hhc Hp) as (x & k' & l & E & D0).
    destruct (ND (reset FL (inc_r (set_pc p c))) k') as (rs & R1 & R2); [apply wf_reset; auto with rng|reflexivity|reflexivity|].
    exists rs. split; [exact R1|]. intros S0 E0 debug s [|fuel] HF; [lia|]. cbn [disasm_loop].
    assert (Hlt : (List.length done <? List.length (done ++ rest))%nat = true)
      by (apply Nat.ltb_lt; rewrite app_length, ER; cbn; lia).
    rewrite Hlt. cbv zeta. fold p.
    rewrite (skipn_app (List.length done) done rest), skipn_all, Nat.sub_diag. cbn [app skipn]. rewrite run_runl, E, D0. cbn [fold_left].
    rewrite (proj2 (Nat.ltb_ge _ _)) by (rewrite app_length; lia).
    unfold is_after_prefix. change (prefix (inc_r (set_pc p c))) with (prefix c). rewrite Hp. apply R2. lia.
  - destruct (ND c k Hw Hp Hhc) as (rs & R1 & R2). exists rs. split; [exact R1|]. intros S0 E0 debug s fuel HF. apply R2. lia.
Qed.
Lemma disasm_listing pc0 m : word pc0 -> Forall byte m ->
  exists rs, listing pc0 m rs /\
    forall S E (debug : S -> CpuDebug -> S * option E) s fuel, (2 * List.length m + 2 <= fuel)%nat ->
      disasm_memory FL q0 debug fuel pc0 m s = Some (feed debug rs s).
Proof.
  intros Hp Hb. destruct (loop_listing (List.length m) m [] [] (cpu_default q0) 0 pc0) as (rs & R1 & R2); try assumption; try reflexivity.
  - constructor; unfold word, byte; cbn; lia.
  - constructor.
  - exists rs. split.
    + cbn [List.length app] in R1. replace pc0 with ((pc0 + Z.of_nat 0 - Z.of_nat 0) mod 65536); [exact R1|]. unfold word in Hp. lia.
    + intros S E debug s fuel HF. apply (R2 S E debug s fuel). cbn. lia.
Qed.
End Disasm.

(** ** The listing is unique *)
Lemma oplen_any px c x y : c <> 0xED -> oplen px c x = oplen px c y.
Proof. intros H. unfold oplen. rewrite (proj2 (Z.eqb_neq c 0xED) H). reflexivity. Qed.
Lemma oplen_ed px x : 2 <= oplen px 0xED x.
Proof. unfold oplen. rewrite Z.eqb_refl. destruct (_ && _)%bool; lia. Qed.
Lemma span_unique g h c u t : prefixes g -> prefixes h -> is_prefix c = false ->
  match t with [] => True | c' :: _ => is_prefix c' = false end -> g ++ t = h ++ c :: u -> g = h /\ t = c :: u.
Proof.
  revert h. induction g as [|a g IH]; intros h Hg Hh Hc Ht E.
  - destruct h as [|b h]; [split; [reflexivity|exact E]|]. cbn [app] in E. subst t. apply Forall_cons_iff in Hh as [Hh _]. congruence.
  - apply Forall_cons_iff in Hg as [Ha Hg]. destruct h as [|b h].
    + injection E as -> _. congruence.
    + apply Forall_cons_iff in Hh as [_ Hh]. injection E as -> E. destruct (IH h Hg Hh Hc Ht E) as [-> ->]. split; reflexivity.
Qed.
Lemma pbyte_prefixes px : prefixes (pbyte px).
Proof. destruct px as [[]|]; repeat constructor. Qed.
Lemma pbyte_inj g g' px px' c : g ++ pbyte px = g' ++ pbyte px' ->
  (px <> None -> indexable c = true) -> (px' <> None -> indexable c = true) ->
  (g <> [] -> px = None -> indexable c = false) -> (g' <> [] -> px' = None -> indexable c = false) -> g = g' /\ px = px'.
Proof.
  intros E H1 H2 H3 H4. destruct px as [p|], px' as [p'|].
  - assert (Ep : forall q : Prefix, exists b, pbyte (Some q) = [b] /\ pfx_of b = Some q)
      by (intros []; eexists; split; reflexivity).
    destruct (Ep p) as (b & Eb & Hb), (Ep p') as (b' & Eb' & Hb'). rewrite Eb, Eb' in E. apply app_inj_tail in E as [-> ->]. split; congruence.
  - exfalso. rewrite (H4) in H1; [discriminate (H1 ltac:(discriminate))| |reflexivity].
    intros ->. cbn [pbyte app] in E. destruct g, p; discriminate.
  - exfalso. rewrite (H3) in H2; [discriminate (H2 ltac:(discriminate))| |reflexivity].
    intros ->. cbn [pbyte app] in E. destruct g', p'; discriminate.
  - cbn [pbyte] in E. rewrite !app_nil_r in E. split; [exact E|reflexivity].
Qed.
Lemma hd_dcode d c bs : dcode d = pbyte (dprefix d) ++ c :: bs -> dprefix d = None -> hd 0 (dcode d) = c.
Proof. intros E H. rewrite E, H. reflexivity. Qed.
Lemma listing_unique p m rs : listing p m rs -> forall rs', listing p m rs' -> map summary rs = map summary rs'.
Proof.
  assert (X : forall g t g' d m', g ++ t = g' ++ dcode d ++ m' -> prefixes g -> truncated (nonempty g) t -> prefixes g' ->
     (g' <> [] -> dprefix d = None -> indexable (hd 0 (dcode d)) = false) -> well_described d -> False).
  { intros g t g' d m' E Hg Ht Hg' HU (c & bs & Ec & Hc & HI & HL & _).
    pose proof (hd_dcode d c bs Ec) as Hhd. rewrite Ec in E. rewrite <- app_assoc, app_assoc in E. cbn [app] in E.
    apply span_unique in E; [|exact Hg|apply Forall_app; split; [exact Hg'|apply pbyte_prefixes]|exact Hc|destruct t; [exact I|apply Ht]].
    destruct E as [-> ->]. cbn [truncated] in Ht. destruct Ht as [_ Ht]. cbn [nth] in Ht.
    assert (EB : (nonempty (g' ++ pbyte (dprefix d)) && indexable c)%bool = match dprefix d with None => false | _ => true end).
    { destruct (dprefix d) as [px|] eqn:EP.
      - rewrite HI by discriminate. destruct g', px; reflexivity.
      - cbn [pbyte]. rewrite app_nil_r. destruct g' as [|b g']; [reflexivity|]. rewrite <- (Hhd eq_refl), HU; [reflexivity|discriminate|reflexivity]. }
    rewrite EB in Ht. cbn [List.length] in HL, Ht. rewrite app_length in Ht. destruct bs as [|b bs]; cbn [nth app List.length] in *; [|lia].
    destruct (Z.eq_dec c 0xED) as [->|N]; [pose proof (oplen_ed (match dprefix d with None => false | _ => true end) 0); lia|].
    rewrite (oplen_any _ _ _ 0 N) in Ht. lia. }
  induction 1 as [p m g t E Hg Ht|p m g d m' rs E Hg HU Hpc Hd HL IH]; intros rs' H'.
  - destruct H' as [|g' d' m1 rs' E' Hg' HU' Hpc' Hd' HL']; [reflexivity|]. exfalso. rewrite E in E'. exact (X _ _ _ _ _ E' Hg Ht Hg' HU' Hd').
  - destruct H' as [g' t' E' Hg' Ht'|g' d' m1 rs' E' Hg' HU' Hpc' Hd' HL'].
    { exfalso. rewrite E' in E. exact (X _ _ _ _ _ E Hg' Ht' Hg HU Hd). }
    destruct Hd as (c & bs & Ec & Hc & HI & HLn & Hm & Ho), Hd' as (c' & bs' & Ec' & Hc' & HI' & HLn' & Hm' & Ho').
    pose proof (hd_dcode d c bs Ec) as Hhd. pose proof (hd_dcode d' c' bs' Ec') as Hhd'.
    rewrite E', Ec, Ec' in E. rewrite <- !app_assoc, !app_assoc in E. cbn [app] in E. rewrite <- !app_assoc in E. cbn [app] in E.
    rewrite !app_assoc in E.
    assert (E2 : (g' ++ pbyte (dprefix d')) = (g ++ pbyte (dprefix d)) /\ c' :: bs' ++ m1 = c :: bs ++ m').
    { rewrite <- !app_assoc in E. cbn [app] in E. rewrite !app_assoc in E. 
      apply span_unique in E; [exact E|apply Forall_app; split; [exact Hg'|apply pbyte_prefixes]|apply Forall_app; split; [exact Hg|apply pbyte_prefixes]|exact Hc|exact Hc']. }
    clear E. destruct E2 as [E1 E2]. injection E2 as -> E2.
    apply (pbyte_inj _ _ _ _ c) in E1; [|exact HI'|exact HI|intros A B; rewrite <- (Hhd' B); now apply HU'|intros A B; rewrite <- (Hhd B); now apply HU].
    destruct E1 as [-> EP]. rewrite EP in *.
    assert (EL : List.length bs' = List.length bs).
    { cbn [List.length] in HLn, HLn'. destruct (Z.eq_dec c 0xED) as [->|N].
      - pose proof (oplen_ed (match dprefix d with None => false | _ => true end) (nth 0 bs 0)).
        pose proof (oplen_ed (match dprefix d with None => false | _ => true end) (nth 0 bs' 0)).
        destruct bs as [|b bs], bs' as [|b' bs']; cbn [List.length] in *; try lia. injection E2 as -> _. cbn [nth] in *. lia.
      - rewrite (oplen_any _ _ _ 0 N) in HLn. rewrite (oplen_any _ _ _ 0 N) in HLn'. lia. }
    assert (EB : bs' = bs /\ m1 = m').
    { clear -E2 EL. revert bs EL E2. induction bs' as [|b bs' IH]; intros [|b2 bs] EL E2; try discriminate; [split; [reflexivity|exact E2]|].
      injection E2 as -> E2. injection EL as EL. destruct (IH bs EL E2) as [-> ->]. split; reflexivity. }
    destruct EB as [-> ->]. assert (EC : dcode d' = dcode d) by congruence.
    assert (Epc : dpc d' = dpc d) by congruence.
    cbn [map]. f_equal.
    + unfold summary. rewrite EC, Epc, EP, Hm, Hm', Ho, Ho', EC, Epc. reflexivity.
    + apply IH. rewrite EC in HL'. exact HL'.
Qed.
(** Reported values are in range. *)
Lemma listing_typed p m rs : listing p m rs -> Forall byte m -> Forall (fun d => well_described d /\ typed d) rs.
Proof.
  induction 1 as [|p m g d m' rs E Hg HU Hpc Hd HL IH]; intros HB; [constructor|].
  rewrite E in HB. apply Forall_app in HB as [_ HB]. apply Forall_app in HB as [HB1 HB2].
  constructor; [|now apply IH]. split; [exact Hd|]. split; [exact HB1|]. rewrite Hpc. unfold word. lia.
Qed.
Lemma feed_once (rs : list CpuDebug) x : fst (feed (fun _ d => (Some d, Some tt)) rs x) = match rs with [] => x | d :: _ => Some d end.
Proof. destruct rs; reflexivity. Qed.
Lemma app_assoc_s (s t u : string) : ((s ++ t) ++ u)%string = (s ++ t ++ u)%string.
Proof. induction s as [|ch s IH]; cbn; [reflexivity|now rewrite IH]. Qed.
Lemma feed_text rs : Forall (fun d => well_described d /\ typed d) rs -> exists lines, Forall2 (fun d s => fmt_debug LHex (plain false) d = Some s) rs lines /\
  forall f, feed (fun f d => match fmt_debug LHex (plain false) d with
                             | Some s => ((f ++ s ++ newline)%string, None) | None => (f, Some tt) end) rs f
    = ((f ++ String.concat "" (map (fun s => s ++ newline) lines))%string, None).
Proof.
  induction 1 as [|d rs Hd Hrs IH].
  - exists []. split; [constructor|]. intros f. cbn. f_equal. induction f as [|ch f IHf]; [reflexivity|cbn; now rewrite <- IHf].
  - destruct IH as (lines & F & IH). destruct (described_formattable d Hd LHex (plain false)) as [[s Hs] _].
    exists (s :: lines). split; [constructor; assumption|]. intros f. cbn [feed]. rewrite Hs, IH, app_assoc_s. f_equal. f_equal.
    assert (EN : forall l, String.concat "" l = fold_right append "" l).
    { induction l as [|a [|b l] IHl]; [reflexivity|cbn; induction a; [reflexivity|cbn; congruence]|].
      cbn [String.concat] in *. rewrite IHl. reflexivity. }
    rewrite !EN. reflexivity.
Qed.

Section Users.
Context {Q T : Type}.
Variables (FL : Flavour Q) (ch : chip T) (absq : Q -> T).
Hypothesis OK : chip_ok FL ch absq.
Variable q0 : Q.
Lemma once_first pc0 m : word pc0 -> Forall byte m ->
  exists rs, listing pc0 m rs /\ forall fuel, (2 * List.length m + 2 <= fuel)%nat ->
    disasm_memory_once FL q0 fuel pc0 m = Some (hd_error rs).
Proof.
  intros Hp Hb. destruct (disasm_listing FL ch absq OK q0 pc0 m Hp Hb) as (rs & H1 & H2). exists rs. split; [exact H1|].
  intros fuel HF. unfold disasm_memory_once. rewrite (H2 _ _ _ _ _ HF). cbn [option_map]. rewrite feed_once. destruct rs; reflexivity.
Qed.
Lemma text_lines pc0 m : word pc0 -> Forall byte m ->
  exists rs lines, listing pc0 m rs /\ Forall2 (fun d s => fmt_debug LHex (plain false) d = Some s) rs lines /\
    forall f fuel, (2 * List.length m + 2 <= fuel)%nat ->
    disasm_memory_write_text FL q0 fuel pc0 m f = Some ((f ++ String.concat "" (map (fun s => s ++ newline) lines))%string, None).
Proof.
  intros Hp Hb. destruct (disasm_listing FL ch absq OK q0 pc0 m Hp Hb) as (rs & H1 & H2).
  destruct (feed_text rs (listing_typed _ _ _ H1 Hb)) as (lines & F & H3). exists rs, lines. split; [exact H1|]. split; [exact F|].
  intros f fuel HF. unfold disasm_memory_write_text. rewrite (H2 _ _ _ _ _ HF), H3. reflexivity.
Qed.
End Users.
