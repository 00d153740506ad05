(** [DbgRep.v] against the specification, and for the entry points. *)
From Coq Require Import ZArith Bool String List Lia.
From Verif Require Import Base Flags Ops Parse Cpu Flavours Prog Trace Internal Instr Exec Decode Sym AluProofs
  Range Safe SafeEntry Ewl SpecLog SpecIsa SpecDebug SpecInt IsaArith IsaCycles IsaExec DbgRep.
Import ListNotations.
Open Scope list_scope.
Open Scope Z_scope.
Ltac Zify.zify_post_hook ::= Z.div_mod_to_equations.

(** ** The decoder's texts are the manual's *)
(** Without a prefix the two kinds of register operands are the same. *)
Definition norm (px : bool) (o : opnd) : opnd :=
  match o with
  | O_x r => if px then O_x r else O_r r
  | O_gx g => if px then O_gx g else O_g g
  | _ => o
  end.
Definition has {X} (o : option X) : bool := match o with Some _ => true | None => false end.
Lemma norm_val px bs nx o : opnd_val px bs nx (norm (has px) o) = opnd_val px bs nx o.
Proof. destruct px as [px|]; destruct o as [[]|[]|[]|[]| | | | | | | | | | | | | | | | ]; reflexivity. Qed.
Lemma norm_map px bs nx l : map (opnd_val px bs nx) (map (norm (has px)) l) = map (opnd_val px bs nx) l.
Proof. rewrite map_map. apply map_ext. intros. apply norm_val. Qed.
Definition normt (px : bool) (t : tmpl) : tmpl := (fst t, map (norm px) (snd t)).
Lemma all_bytes_eq {X} (f g : Z -> X) : map f all_bytes = map g all_bytes -> forall c, byte c -> f c = g c.
Proof.
  intros E. apply (all_bytes_spec (fun c => f c = g c)). revert E. generalize all_bytes as l.
  induction l as [|x l IH]; intros E; [constructor|]. injection E as E1 E2. constructor; auto.
Qed.
Definition main_only (c : Z) : bool := negb ((c =? 0xCB) || (c =? 0xED) || is_prefix c).
Definition none2 (x : Z * tmpl) := (fst x, normt false (snd x)).
Lemma main_none c : byte c -> main_only c = true ->
  none2 (m_none c 0) = (oplen false c 0, normt false (main_text false (decode c))).
Proof.
  intros Hc E.
  assert (H := all_bytes_eq
    (fun c => if main_only c then none2 (m_none c 0) else (0, ("", [])%string))
    (fun c => if main_only c then (oplen false c 0, normt false (main_text false (decode c))) else (0, ("", [])%string))
    ltac:(vm_compute; reflexivity) c Hc). cbv beta in H. now rewrite E in H.
Qed.
Lemma cb_none c : byte c -> normt false (m_cb c) =
  normt false (let (o, g) := cb_decode c in cb_text o (match g with Some r => O_r r | None => O_ind HL end)).
Proof.
  apply (all_bytes_eq (fun c => normt false (m_cb c)) (fun c => normt false (let (o, g) := cb_decode c in cb_text o (match g with Some r => O_r r | None => O_ind HL end)))).
  vm_compute. reflexivity.
Qed.
Lemma ed_none c : byte c -> m_ed c = (oplen false 0xED c, ed_text (ed_decode c)).
Proof. revert c. apply all_bytes_eq. vm_compute. reflexivity. Qed.
Lemma main_pfx c : byte c -> indexable c && main_only c = true ->
  (fst (m_pfx c 0), normt true (snd (m_pfx c 0))) = (oplen true c 0, normt true (main_text true (decode c))).
Proof.
  intros Hc E.
  assert (H := all_bytes_eq
    (fun c => if indexable c && main_only c then (fst (m_pfx c 0), normt true (snd (m_pfx c 0))) else (0, ("", [])%string))
    (fun c => if indexable c && main_only c then (oplen true c 0, normt true (main_text true (decode c))) else (0, ("", [])%string))
    ltac:(vm_compute; reflexivity) c Hc). cbv beta in H. now rewrite E in H.
Qed.
Lemma cb_pfx c : byte c -> m_xcb c = let (o, g) := cb_decode c in xcb_text o g.
Proof. revert c. apply all_bytes_eq. vm_compute. reflexivity. Qed.
Lemma ignored c : byte c -> decode_pfx c = P_IGNORE <-> indexable c = false /\ is_prefix c = false.
Proof.
  intros Hc.
  assert (H : (match decode_pfx c with P_IGNORE => negb (indexable c || is_prefix c) | _ => indexable c || is_prefix c end) = true).
  { revert c Hc. apply all_bytesb. vm_compute. reflexivity. }
  destruct (decode_pfx c); destruct (indexable c), (is_prefix c); try discriminate H; split; try discriminate; auto; intros []; discriminate.
Qed.
Lemma m_none_ign c c2 : decode_none c <> M_CB -> decode_none c <> M_ED -> m_none c c2 = m_none c 0.
Proof. unfold m_none. destruct (decode_none c); congruence. Qed.
Lemma m_pfx_ign c c2 : decode_pfx c <> P_CB -> m_pfx c c2 = m_pfx c 0.
Proof. unfold m_pfx. destruct (decode_pfx c); congruence. Qed.
Lemma main_dec c : byte c -> main_only c = true ->
  decode_none c <> M_CB /\ decode_none c <> M_ED /\ decode_pfx c <> P_CB /\
  (decode c <> I_CB /\ decode c <> I_ED).
Proof.
  intros Hc E.
  assert (H : (if main_only c then match decode_none c with M_CB | M_ED => false | _ => true end &&
    match decode_pfx c with P_CB => false | _ => true end && match decode c with I_CB | I_ED => false | _ => true end else true) = true).
  { revert c Hc E. intros c Hc _. revert c Hc. apply all_bytesb. vm_compute. reflexivity. }
  rewrite E in H. apply andb_prop in H as [H H3]. apply andb_prop in H as [H1 H2].
  repeat split; intros X; rewrite X in *; discriminate.
Qed.
(** The text in terms of what follows the first byte; lengths too. *)
Lemma oplen_ign px c c2 : c <> 0xED -> oplen px c c2 = oplen px c 0.
Proof. intros H. unfold oplen. destruct (Z.eqb_spec c 0xED); [contradiction|]. reflexivity. Qed.
Lemma main_text_eq px c bs : decode c <> I_CB -> decode c <> I_ED -> text px c bs = main_text (has px) (decode c).
Proof. unfold text. destruct (decode c), px; intros; try contradiction; reflexivity. Qed.
Definition good_byte (bs : list Z) := Forall byte bs.
Lemma nth_byte bs n : good_byte bs -> byte (nth n bs 0).
Proof. intros H. destruct (nth_in_or_default n bs 0) as [E|E]; [|rewrite E; unfold byte; lia]. now apply (proj1 (Forall_forall _ _) H). Qed.

(** What is wanted of the template: the same length, the same name, the same operand values. *)
Definition same (px : option Prefix) (c : Z) (bs : list Z) (x : Z * tmpl) : Prop :=
  fst x = oplen (has px) c (nth 0 bs 0) /\ fst (snd x) = fst (text px c bs) /\
  forall nx, map (opnd_val px (c :: bs) nx) (snd (snd x)) = map (opnd_val px (c :: bs) nx) (snd (text px c bs)).
Lemma same_norm px c bs x n t : (fst x, normt (has px) (snd x)) = (n, normt (has px) t) ->
  n = oplen (has px) c (nth 0 bs 0) -> t = text px c bs -> same px c bs x.
Proof.
  intros E -> ->. unfold normt in E. injection E as E1 E2 E3. split; [exact E1|split; [exact E2|]].
  intros nx. rewrite <- (norm_map px _ _ (snd (snd x))), E3. apply norm_map.
Qed.
Lemma none_same c bs : byte c -> good_byte bs -> is_prefix c = false -> same None c bs (m_none c (nth 0 bs 0)).
Proof.
  intros Hc Hb HN. pose proof (nth_byte bs 0 Hb) as H0.
  destruct (Z.eqb_spec c 0xCB) as [->|N1]; [|destruct (Z.eqb_spec c 0xED) as [->|N2]].
  - refine (same_norm None 0xCB bs _ 2 _ _ _ eq_refl); [|reflexivity].
    change (m_none 0xCB (nth 0 bs 0)) with (2, m_cb (nth 0 bs 0)). cbn [fst snd has]. rewrite (cb_none _ H0). reflexivity.
  - refine (same_norm None 0xED bs _ _ _ _ eq_refl eq_refl).
    change (m_none 0xED (nth 0 bs 0)) with (m_ed (nth 0 bs 0)). rewrite (ed_none _ H0). reflexivity.
  - assert (E : main_only c = true) by (unfold main_only; rewrite HN; lia).
    destruct (main_dec c Hc E) as (D1 & D2 & D3 & D4 & D5). rewrite m_none_ign by assumption.
    refine (same_norm None c bs _ _ _ (main_none c Hc E) _ _).
    + symmetry. now apply oplen_ign.
    + symmetry. now apply (main_text_eq None).
Qed.
Lemma pfx_same c px bs : byte c -> good_byte bs -> indexable c = true -> is_prefix c = false -> same (Some px) c bs (m_pfx c (nth 1 bs 0)).
Proof.
  intros Hc Hb HI HN. pose proof (nth_byte bs 1 Hb) as H0.
  destruct (Z.eqb_spec c 0xCB) as [->|N1]; [|destruct (Z.eqb_spec c 0xED) as [->|N2]; [discriminate|]].
  - refine (same_norm (Some px) 0xCB bs _ 3 _ _ _ eq_refl); [|reflexivity].
    change (m_pfx 0xCB (nth 1 bs 0)) with (3, m_xcb (nth 1 bs 0)). cbn [fst snd has]. rewrite (cb_pfx _ H0). reflexivity.
  - assert (E : main_only c = true) by (unfold main_only; rewrite HN; lia).
    destruct (main_dec c Hc E) as (D1 & D2 & D3 & D4 & D5). rewrite m_pfx_ign by assumption.
    refine (same_norm (Some px) c bs _ _ _ (main_pfx c Hc _) _ _).
    + now rewrite HI, E.
    + symmetry. now apply oplen_ign.
    + symmetry. now apply (main_text_eq (Some px)).
Qed.

Section Rep.
Context {Q TS WB RB : Type}.
Variable FL : Flavour Q.
Notation st := (@st Q).
Notation ev := (ev TS WB RB).
Notation wpl := (Trace.wpl (TS:=TS) (WB:=WB) (RB:=RB)) (only parsing).

(** All bytes in the log are bytes. *)
Definition bytes_ok (l : list ev) : Prop := Forall (fun e => Forall (fun x => byte (snd x)) (code_reads e)) l.
Lemma silent_q (l : list ev) : forallb quietb l = true -> Forall silent l.
Proof. intros H. apply Forall_forall. intros e He. rewrite forallb_forall in H. specialize (H e He). now destruct e. Qed.
Lemma fetching_f (l : list ev) : forallb fetchingb l = true -> Forall fetching l.
Proof. intros H. apply Forall_forall. intros e He. rewrite forallb_forall in H. specialize (H e He). now destruct e. Qed.
Lemma rep_reported px (c p : Z) (D : list Z -> Z * tmpl) (l : list ev) : rep px c p D l -> is_prefix c = false -> (px <> None -> indexable c = true) ->
  bytes_ok l -> (forall bs, good_byte bs -> same px c bs (D bs)) ->
  exists d, reported (pbyte px ++ [c]) p l d /\ dprefix d = px /\ well_described d.
Proof.
  unfold rep. intros H HN HI HB HS. destruct (cut l) as [[[l1 d] l2]|] eqn:E; [|contradiction].
  apply cut_app in E. destruct H as (H1 & H2 & H3 & H4 & H5 & H6). cbv zeta in H6.
  assert (G : good_byte (map snd (flat_map code_reads l1))).
  { subst l. apply Forall_app in HB as [HB _]. clear -HB. induction HB as [|e l He HB IH]; [constructor|].
    cbn [flat_map]. rewrite map_app. apply Forall_app. split; [|exact IH]. apply Forall_map. exact He. }
  specialize (HS _ G). set (bs := map snd (flat_map code_reads l1)) in *. destruct H6 as (H6 & H7 & H8 & H9). destruct HS as (S1 & S2 & S3).
  exists d. split; [|split; [exact H4|]].
  - exists l1, l2, (flat_map code_reads l1). split; [exact E|]. split; [now apply fetching_f|]. split; [now apply silent_q|].
    split; [reflexivity|]. split; [exact H3|]. split; [|exact H5]. rewrite H6. fold bs. now rewrite <- app_assoc.
  - exists c, bs. rewrite H4. split; [exact H6|]. split; [exact HN|]. split; [exact HI|].
    split; [etransitivity; [exact H7|exact S1]|]. split; [now rewrite H8|]. rewrite H9. apply S3.
Qed.
Lemma wpl_bytes {X} (q : prog TS WB RB X) : forall P, wpl q P -> wpl q (fun a l => P a l /\ bytes_ok l).
Proof.
  induction q; intros P HP; cbn [Trace.wpl] in *; try (split; [exact HP|constructor]); try exact HP; intros;
  (eapply wpl_mono; [|first [match goal with IH : forall P, wpl ?k P -> _ |- _ => exact (IH _ HP) end
     |match goal with IH : forall x P, wpl (?k x) P -> _, Hv : byte ?v |- _ => exact (IH v _ (HP v Hv)) end
     |match goal with IH : forall x P, wpl (?k x) P -> _, Hv : word ?v |- _ => exact (IH v _ (HP v Hv)) end
     |match goal with IH : forall x P, wpl (?k x) P -> _ |- wpl (?k ?v) _ => exact (IH v _ (HP v)) end
     |match goal with IH : forall x y P, wpl (?k x y) P -> _, Hv : byte ?v |- wpl (?k ?v ?w) _ => exact (IH v w _ (HP v w Hv)) end
     |match goal with IH : forall x y P, wpl (?k x y) P -> _ |- wpl (?k ?v ?w) _ => exact (IH v w _ (HP v w)) end]]);
  cbv beta; (intros ? ? [H1 H2]; split; [exact H1|]; constructor; [|exact H2]); cbn [code_reads];
  repeat (constructor; cbn [snd]); unfold byte, word in *; lia.
Qed.

Definition step_rep (px : option Prefix) (code p : Z) (l : list ev) : Prop :=
  if is_prefix code then Forall silent l
  else exists d, reported (pbyte (used_prefix px code) ++ [code]) p l d /\ dprefix d = used_prefix px code /\ well_described d.

Lemma exec_code_rep code (s : st) : byte code -> wfst s ->
  wpm (TS:=TS) (WB:=WB) (RB:=RB) (exec_code FL true code) s (fun _ _ l => step_rep (spx s) code (spc s) l).
Proof.
  intros Hc Hw. unfold step_rep. destruct (is_prefix code) eqn:HN.
  - assert (D : exists p, decode_none code = M_PFX p /\ decode_pfx code = P_PFX p).
    { unfold is_prefix in HN. apply orb_prop in HN as [E|E]; apply Z.eqb_eq in E as ->; eexists; split; reflexivity. }
    destruct D as (p & D1 & D2). apply wpm_exec.
    + intros _. unfold run_none. rewrite D1. cbn. constructor.
    + intros px _ _. unfold run_pfx. rewrite D2. cbn. constructor.
  - apply wpm_exec.
    + intros Hp. assert (E : used_prefix (spx s) code = None).
      { unfold used_prefix. destruct Hp as [->|Hp]; [now destruct (indexable code)|]. apply (ignored code Hc) in Hp as [-> _]. reflexivity. }
      rewrite E. unfold wpm. refine (wpl_mono _ _ _ _ (wpl_bytes _ _ (run_none_rep FL code (mkSt (begun FL (sc s)) (sfl s) (spc s) None) Hc eq_refl _ HN))).
      * intros x l [H1 H2]. refine (rep_reported None code _ _ l H1 HN _ H2 _); [congruence|]. intros bs Hb. now apply none_same.
      * destruct Hw as (H1 & H2 & H3). split; [|split]; cbn [sc sfl spc]; unfold begun; auto with rng.
    + intros px Hp HI.
      assert (Hi : indexable code = true).
      { destruct (indexable code) eqn:E; [reflexivity|]. exfalso. apply HI, (ignored code Hc). auto. }
      unfold used_prefix. rewrite Hi, Hp. unfold wpm.
      refine (wpl_mono _ _ _ _ (wpl_bytes _ _ (run_pfx_rep FL code px (mkSt (begun FL (sc s)) (sfl s) (spc s) (Some px)) Hc eq_refl _ HN HI))).
      * intros [s' n] l [[H0 H1] H2]. cbn [fst snd] in *. subst n.
        refine (rep_reported (Some px) code _ _ l H1 HN _ H2 _); [intros _; exact Hi|]. intros bs Hb. now apply pfx_same.
      * destruct Hw as (H1 & H2 & H3). split; [|split]; cbn [sc sfl spc]; unfold begun; auto with rng.
Qed.
Implicit Types c : cpu Q.
Lemma execute_instruction_rep code c : byte code -> wf c ->
  wpl (execute_instruction FL true code c) (fun _ l => step_rep (prefix c) code (pc c) l).
Proof.
  intros Hc Hw. unfold execute_instruction. apply wpl_bind.
  refine (wpl_mono _ _ _ _ (exec_code_rep code (load_st (set_halt false (set_last_ei false c))) Hc _)).
  - intros x l H. cbn [Trace.wpl]. rewrite app_nil_r. exact H.
  - apply wf_load; auto with rng.
Qed.
(** [execute_next]: the op-code's own fetch counts as well. *)
Definition next_rep c (l : list ev) : Prop :=
  exists code, byte code /\ first_op l (pc c) code /\
  if is_prefix code then Forall silent l
  else exists d, reported (pbyte (used_prefix (prefix c) code)) (pc c) l d /\ dprefix d = used_prefix (prefix c) code /\ well_described d.
Lemma reported_fetch first p (l : list ev) (d : CpuDebug) (l0 : list ev) code : word p ->
  Forall fetching l0 -> flat_map code_reads l0 = [(p, code)] ->
  reported (first ++ [code]) (u16 (p + 1)) l d -> reported first p (l0 ++ l) d.
Proof.
  intros Hp F E (l1 & l2 & rd & H1 & H2 & H3 & H4 & H5 & H6 & H7).
  exists (l0 ++ l1), l2, ((p, code) :: rd). split; [rewrite H1, app_assoc; reflexivity|].
  split; [apply Forall_app; auto|]. split; [exact H3|]. split; [now rewrite flat_map_app, E, H4|].
  split; [cbn [map fst List.length addrs]; f_equal; exact H5|].
  split; [rewrite H6, <- app_assoc; reflexivity|]. rewrite H7, app_length. cbn [List.length]. unfold u16, word in *. lia.
Qed.
Lemma execute_next_rep c : wf c ->
  wpl (execute_next FL true c) (fun _ l =>
    (exists t l', l = KTs t :: EIsIrq t true :: l') \/ (if halt c then Forall silent l else next_rep c l)).
Proof.
  intros Hw. unfold execute_next.
  assert (G : forall pre : list ev, Forall fetching pre -> flat_map code_reads pre = [] -> wpl
    (if halt c then AddM1 (pc c) (fun _ => Ret (inc_r c, None))
     else pbind (on_cpu (fetch_next_opcode (pc c)) c) (fun x =>
       execute_instruction FL true (snd (snd x)) (set_pc (fst (snd x)) (fst x))))
    (fun _ l => if halt c then Forall silent (pre ++ l) else next_rep c (pre ++ l))).
  { intros pre F E. destruct (halt c) eqn:Hh.
    - cbn. intros t. apply Forall_app. split; [|repeat constructor]. refine (Forall_impl _ _ F). intros e. now destruct e.
    - apply wpl_bind. unfold on_cpu, fetch_next_opcode. cbn. intros t v Hv.
      refine (wpl_mono _ _ _ _ (execute_instruction_rep v (set_pc (u16 (pc c + 1)) (inc_r c)) Hv _)); [|auto with rng].
      intros x l H. exists v. split; [exact Hv|]. split; [exists (pre ++ [KM1 (pc c) t]), (get_ir (inc_r c)), t, l; split; [now rewrite <- app_assoc|now rewrite flat_map_app, E]|].
      unfold step_rep in H. cbn [prefix pc set_pc inc_r] in H.
      destruct (is_prefix v) eqn:HN.
      + apply Forall_app. split; [refine (Forall_impl _ _ F); intros e; now destruct e|]. repeat (constructor; [exact I|]). exact H.
      + destruct H as (d & H1 & H2 & H3). exists d. split; [|split; [exact H2|exact H3]].
        change (pre ++ KM1 (pc c) t :: EOp (pc c) (get_ir (inc_r c)) t v :: l) with
          (pre ++ [KM1 (pc c) t; EOp (pc c) (get_ir (inc_r c)) t v] ++ l). rewrite app_assoc.
        refine (reported_fetch _ _ _ d _ v _ _ _ H1); [now apply wf_pc| |].
        * apply Forall_app. split; [exact F|repeat constructor].
        * rewrite flat_map_app, E. reflexivity. }
  unfold test_irq. destruct (is_irq_allowed c).
  - cbn [Trace.wpl]. intros t [].
    + refine (wpl_mono _ _ _ _ (irq_no_check_wf FL true c Hw)). intros x l _. left. exists t, l. reflexivity.
    + refine (wpl_mono _ _ _ _ (G [KTs t; EIsIrq t false] _ eq_refl)); [|repeat constructor].
      intros x l H. right. exact H.
  - refine (wpl_mono _ _ _ _ (G [] _ eq_refl)); [|constructor]. intros x l H. right. exact H.
Qed.
(** Interrupts. *)
Lemma irq_no_check_rep c : wf c -> prefix c = None -> wpl (irq_no_check FL true c) (fun _ l => int_rep c l).
Proof.
  intros Hw Hp. unfold irq_no_check.
  assert (E : exists c' p, (if halt (inc_r (disable_interrupts c))
       then (set_pc (u16 (pc (inc_r (disable_interrupts c)) + 1)) (set_halt false (inc_r (disable_interrupts c))),
             u16 (pc (inc_r (disable_interrupts c)) + 1))
       else (inc_r (disable_interrupts c), pc (inc_r (disable_interrupts c)))) = (c', p) /\ wf c' /\ word p /\
       p = return_to c /\ im c' = im c /\ prefix c' = None /\ get_i c' = get_i c /\ pc c' = p).
  { unfold return_to. destruct (halt (inc_r (disable_interrupts c))) eqn:Hh; change (halt (inc_r (disable_interrupts c))) with (halt c) in Hh; rewrite Hh;
      eexists _, _; (split; [reflexivity|]); (split; [auto 6 with rng|]); (split; [auto 6 with rng|]); (split; [reflexivity|]); (split; [reflexivity|]); (split; [exact Hp|]); split; reflexivity. }
  destruct E as (c' & p & E & Hw' & Hpw & Hr & Hi & Hpx & HI & Hpc). cbv zeta. rewrite E. cbn [Trace.wpl]. intros t v w Hv.
  assert (G : forall l0 : list ev, Forall silent l0 -> wpl
    match im c' with
    | Mode0 => execute_instruction FL true v c'
    | Mode1 => execute_instruction FL true RST_38H_OPCODE c'
    | Mode2 => AddNoMreq (get_ir c') 1
        (pbind (on_cpu (push16 p) c') (fun x =>
         execute_instruction FL true JP_OPCODE (set_pc (Z.lor (Z.land (get_ir c') 0xFF00) v) (fst x))))
    end (fun _ l => exists l1 l', l0 ++ l = l1 ++ l' /\ Forall silent l1 /\
       if is_prefix (fst (injected c v)) then Forall silent l'
       else exists d, reported [fst (injected c v)] (snd (injected c v)) l' d /\ dprefix d = None /\ well_described d)).
  { intros l0 F. unfold injected. rewrite <- Hi, <- Hr.
    assert (U : forall b, used_prefix None b = None) by (intros b; unfold used_prefix; now destruct (indexable b)).
    destruct (im c'); cbn [fst snd].
    - refine (wpl_mono _ _ _ _ (execute_instruction_rep v c' Hv Hw')). intros x l H. exists l0, l.
      split; [reflexivity|]. split; [exact F|]. unfold step_rep in H. rewrite Hpx, U, Hpc in H. exact H.
    - refine (wpl_mono _ _ _ _ (execute_instruction_rep RST_38H_OPCODE c' _ Hw')); [|unfold byte, RST_38H_OPCODE; lia]. intros x l H. exists l0, l.
      split; [reflexivity|]. split; [exact F|]. unfold step_rep in H. rewrite Hpx, U, Hpc in H. exact H.
    - cbn [Trace.wpl]. apply wpl_bind. refine (wpl_mono _ _ _ _ (push16_log p c')).
      intros [c2 u] lp [Ec (t1 & t2 & El)]. cbn [fst] in *. subst c2 lp.
      assert (Hj : word (Z.lor (Z.land (get_ir c') 0xFF00) v)) by (apply lor_word; [apply land_word_r; unfold word; lia|now apply byte_word]).
      refine (wpl_mono _ _ _ _ (execute_instruction_rep JP_OPCODE (set_pc (Z.lor (Z.land (get_ir c') 0xFF00) v) (set_sp (u16 (sp c' - 2)) c')) _ _));
        [|unfold byte, JP_OPCODE; lia|auto 8 with rng].
      intros x l H. eexists (l0 ++ [_; _; _; _; _]), l.
      split; [rewrite <- app_assoc; cbn [app]; reflexivity|]. split; [apply Forall_app; split; [exact F|repeat constructor]|].
      unfold step_rep in H. cbn [prefix pc set_pc set_sp] in H. rewrite Hpx, U in H.
      assert (Ev : Z.lor (Z.land (get_ir c') 0xFF00) v = 256 * get_i c + v).
      { rewrite vaddr_ok by auto with rng. rewrite get_ir_rval by apply Hw'. rewrite <- HI. pose proof (rval_byte (ir c') (r c')) as Hb. unfold byte in Hb. unfold get_i, mk16, hi8, lo8. lia. }
      rewrite Ev in H. exact H. }
  destruct w as [n|]; cbn [Trace.wpl].
  - refine (wpl_mono _ _ _ _ (G [KWait p n] _)); [|repeat constructor]. intros x l (l1 & l' & E1 & E2 & E3).
    exists t, v, (Some n), l1, l'. split; [exact Hv|]. split; [rewrite <- E1, <- Hr; reflexivity|]. split; [exact E2|exact E3].
  - refine (wpl_mono _ _ _ _ (G [] _)); [|constructor]. intros x l (l1 & l' & E1 & E2 & E3).
    exists t, v, None, l1, l'. split; [exact Hv|]. split; [rewrite <- E1, <- Hr; reflexivity|]. split; [exact E2|exact E3].
Qed.
Lemma irq_rep c : wf c -> wpl (irq FL true c) (fun _ l => if is_irq_allowed c then int_rep c l else l = []).
Proof.
  intros Hw. unfold irq. destruct (is_irq_allowed c) eqn:E; [|reflexivity].
  apply wpl_bind. refine (wpl_mono _ _ _ _ (irq_no_check_rep c Hw _)).
  - intros x l H. cbn [Trace.wpl]. rewrite app_nil_r. exact H.
  - unfold is_irq_allowed, is_int_allowed in E. destruct (prefix c); [|reflexivity]. now rewrite andb_false_r in E.
Qed.
Lemma execute_next_int_rep c : wf c ->
  wpl (execute_next FL true c) (fun _ l =>
    (exists t l', l = KTs t :: EIsIrq t true :: l' /\ int_rep c l') \/ (if halt c then Forall silent l else next_rep c l)).
Proof.
  intros Hw. assert (H := execute_next_rep c Hw).
  assert (H2 : wpl (execute_next FL true c) (fun _ l => forall t l', l = KTs t :: EIsIrq t true :: l' -> int_rep c l')).
  { clear H. assert (W := execute_next_wf (TS:=TS) (WB:=WB) (RB:=RB) FL true c Hw). revert W. unfold execute_next, test_irq.
    destruct (is_irq_allowed c) eqn:E.
    - cbn [Trace.wpl]. intros W t []; [|refine (wpl_mono _ _ _ _ (W t false)); intros x l _ t' l'; discriminate].
      refine (wpl_mono _ _ _ _ (irq_no_check_rep c Hw _)).
      + intros x l HI t' l' El. injection El; intros; subst; exact HI.
      + unfold is_irq_allowed, is_int_allowed in E. destruct (prefix c); [|reflexivity]. now rewrite andb_false_r in E.
    - destruct (halt c).
      + cbn. intros _ t t' l'. discriminate.
      + intros _. apply wpl_bind. unfold on_cpu, fetch_next_opcode. cbn. intros t v Hv.
        refine (wpl_mono _ _ _ _ (execute_instruction_wf FL true v (set_pc (u16 (pc c + 1)) (inc_r c)) Hv _)); [|auto with rng]. intros x l _ t' l'. discriminate. }
  refine (wpl_mono _ _ _ _ (wpl_and _ _ _ H H2)). intros x l [[(t & l' & ->)|H1] HI]; [left|right; exact H1].
  exists t, l'. split; [reflexivity|]. now apply (HI t).
Qed.
Lemma nmi_rep c : wf c -> wpl (nmi FL c) (fun _ l => Forall silent l).
Proof.
  intros Hw. unfold nmi. destruct (is_int_allowed _ _); [|constructor]. unfold nmi_no_check. cbv zeta.
  destruct (halt _); unfold on_cpu, push16, push2; cbn; intros; repeat constructor.
Qed.
End Rep.
(** A complete instruction has 1 to 4 bytes. *)
Lemma well_described_len d : well_described d -> 1 <= Z.of_nat (List.length (dcode d)) <= 4.
Proof.
  intros (c & bs & E & HN & HI & HL & _). rewrite E, app_length.
  assert (HO : forall px, 1 <= oplen px c (nth 0 bs 0) <= (if px then 3 else 4) \/ c = 0xED).
  { intros px. destruct (Z.eqb_spec c 0xED) as [->|N]; [now right|left]. unfold oplen. replace (c =? 0xED) with false by lia.
    repeat match goal with |- context [if ?b then _ else _] => destruct b end; lia. }
  destruct (dprefix d) as [px|].
  - assert (Hp : List.length (pbyte (Some px)) = 1%nat) by (destruct px; reflexivity). rewrite Hp.
    specialize (HI ltac:(discriminate)). destruct (HO true) as [H| ->]; [|discriminate HI]. assert (HL' : Z.of_nat (List.length (c :: bs)) = oplen true c (nth 0 bs 0)) by exact HL. lia.
  - assert (HL' : Z.of_nat (List.length (c :: bs)) = oplen false c (nth 0 bs 0)) by exact HL. clear HL. change (List.length (pbyte None)) with 0%nat. rewrite Nat.add_0_l.
    destruct (HO false) as [H| ->]; [lia|]. rewrite HL'. unfold oplen.
    repeat match goal with |- context [if ?b then _ else _] => destruct b end; lia.
Qed.

(** Every report. *)
Section All.
Context {Q TS WB RB : Type}.
Variable FL : Flavour Q.
Implicit Types c : cpu Q.
Notation ev := (ev TS WB RB).
Lemma silent_no (l : list ev) d : Forall silent l -> ~ In (EDebug d) l.
Proof. intros F H. rewrite Forall_forall in F. exact (F _ H). Qed.
Lemma reported_in first p (l : list ev) d d' : reported first p l d -> In (EDebug d') l -> d' = d.
Proof.
  intros (l1 & l2 & rd & -> & F1 & F2 & _) H. apply in_app_or in H as [H|[H|H]].
  - rewrite Forall_forall in F1. destruct (F1 _ H).
  - now injection H as <-.
  - destruct (silent_no _ _ F2 H).
Qed.
Lemma int_rep_in c (l : list ev) d : int_rep c l -> In (EDebug d) l -> well_described d.
Proof.
  intros (t & v & w & l0 & l' & _ & -> & F & H) [X|[X|X]]; try discriminate X.
  apply in_app_or in X as [X|X]; [destruct (silent_no _ _ F X)|].
  destruct (is_prefix _); [destruct (silent_no _ _ H X)|]. destruct H as (d' & H1 & _ & H2).
  now rewrite (reported_in _ _ _ _ _ H1 X).
Qed.
Lemma execute_next_all c : wf c ->
  Trace.wpl (execute_next (TS:=TS) (WB:=WB) (RB:=RB) FL true c) (fun _ l => forall d, In (EDebug d) l -> well_described d).
Proof.
  intros Hw. refine (wpl_mono _ _ _ _ (execute_next_int_rep FL c Hw)). intros x l [(t & l' & -> & H)|H] d X.
  - destruct X as [X|[X|X]]; try discriminate X. exact (int_rep_in _ _ _ H X).
  - destruct (halt c); [destruct (silent_no _ _ H X)|]. destruct H as (code & _ & _ & H).
    destruct (is_prefix code); [destruct (silent_no _ _ H X)|]. destruct H as (d' & H1 & _ & H2).
    now rewrite (reported_in _ _ _ _ _ H1 X).
Qed.
Lemma irq_all c : wf c ->
  Trace.wpl (irq (TS:=TS) (WB:=WB) (RB:=RB) FL true c) (fun _ l => forall d, In (EDebug d) l -> well_described d).
Proof.
  intros Hw. refine (wpl_mono _ _ _ _ (irq_rep FL c Hw)). intros x l H d X.
  destruct (is_irq_allowed c); [exact (int_rep_in _ _ _ H X)|]. subst l. destruct X.
Qed.
Lemma execute_instruction_all code c : byte code -> wf c ->
  Trace.wpl (execute_instruction (TS:=TS) (WB:=WB) (RB:=RB) FL true code c) (fun _ l => forall d, In (EDebug d) l -> well_described d).
Proof.
  intros Hc Hw. refine (wpl_mono _ _ _ _ (execute_instruction_rep FL code c Hc Hw)). unfold step_rep. intros x l H d X.
  destruct (is_prefix code); [destruct (silent_no _ _ H X)|]. destruct H as (d' & H1 & _ & H2).
  now rewrite (reported_in _ _ _ _ _ H1 X).
Qed.
End All.
