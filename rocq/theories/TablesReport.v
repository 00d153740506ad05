(** Proofs for C48: the crate's table of mnemonics against the reports of the model. *)
From Coq Require Import ZArith Bool String Ascii List Lia.
From Verif Require Import Base Parse Cpu Range Prog Trace Exec SpecIsa SpecInt SpecDebug DbgRun Tables SpecTables.
Import ListNotations.
Open Scope string_scope.
Open Scope list_scope.
Open Scope Z_scope.
Ltac Zify.zify_post_hook ::= Z.div_mod_to_equations.

(** ** The report of an instruction is determined by its bytes *)
Definition rebuild (l : list CpuDebugArg) : option CpuDebugArgs :=
  match l with
  | [] => Some ANone | [a] => Some (ASingle a) | [a; b] => Some (ADouble a b)
  | [DBit n; a; DReg8 None r] => Some (ABitOpExt n a r)
  | _ => None
  end.
Lemma rebuild_ok l a : rebuild l = Some a -> operands a = l.
Proof.
  intros E. destruct l as [|x [|y [|z [|]]]].
  1-3: try destruct x; injection E as <-; reflexivity.
  - destruct x; try discriminate. destruct z as [| | |px r| | | | | | | |]; try discriminate. destruct px; [discriminate|].
    injection E as <-. reflexivity.
  - destruct x; try discriminate. destruct z as [| | |px r| | | | | | | |]; try discriminate. destruct px; discriminate.
Qed.
Lemma operands_inj a b : operands a = operands b -> a = b.
Proof. destruct a, b; cbn; congruence. Qed.
Definition is_px (px : option Prefix) : bool := match px with None => false | _ => true end.
Definition described (px : option Prefix) (c : Z) (bs : list Z) (p : Z) : parsed :=
  let code := pbyte px ++ c :: bs in
  match rebuild (map (opnd_val px (c :: bs) ((p + Z.of_nat (List.length code)) mod 65536)) (snd (text px c bs))) with
  | Some args => Report (mkDebug code (fst (text px c bs)) p px args)
  | None => Panics
  end.
Definition proper (px : option Prefix) (c : Z) (bs : list Z) : bool :=
  negb (is_prefix c) && (negb (is_px px) || indexable c) && (Z.of_nat (List.length (c :: bs)) =? oplen (is_px px) c (nth 0 bs 0)).
Lemma described_ok px c bs p d : described px c bs p = Report d -> proper px c bs = true ->
  well_described d /\ dprefix d = px /\ dpc d = p /\ dcode d = pbyte px ++ c :: bs.
Proof.
  unfold described, proper. intros E HP. apply andb_true_iff in HP. destruct HP as [HP H3]. apply andb_true_iff in HP.
  destruct HP as [H1 H2]. apply Z.eqb_eq in H3. apply negb_true_iff in H1. apply orb_true_iff in H2.
  destruct (rebuild _) eqn:ER; [|discriminate]. injection E as <-. apply rebuild_ok in ER.
  split; [|auto]. exists c, bs. cbn [dcode dprefix dmnemonic dargs dpc].
  split; [reflexivity|]. split; [exact H1|]. split; [|auto].
  intros N. destruct H2 as [H2|H2]; [|exact H2]. destruct px; [discriminate|congruence].
Qed.
Lemma stored_same m : forall l1 l2 p, stored m p l1 -> stored m p l2 -> List.length l1 = List.length l2 -> l1 = l2.
Proof.
  induction l1 as [|x l1 IH]; intros [|y l2] p H1 H2 E; try discriminate; [reflexivity|].
  cbn [stored] in *. destruct H1 as [<- H1], H2 as [<- H2]. f_equal. injection E as E. exact (IH _ _ H1 H2 E).
Qed.
Lemma oplen_ed px c c2 c2' : c <> 0xED -> oplen px c c2 = oplen px c c2'.
Proof. intros N. unfold oplen. now rewrite (proj2 (Z.eqb_neq _ _) N). Qed.
Lemma same_length m p px c bs bs' : stored m p bs -> stored m p bs' ->
  Z.of_nat (List.length (c :: bs)) = oplen px c (nth 0 bs 0) -> Z.of_nat (List.length (c :: bs')) = oplen px c (nth 0 bs' 0) ->
  List.length bs = List.length bs'.
Proof.
  intros H1 H2 L1 L2. destruct (Z.eq_dec c 0xED) as [->|N].
  - destruct bs as [|x bs]; [discriminate L1|].
    destruct bs' as [|y bs']; [discriminate L2|].
    cbn [stored] in *. destruct H1 as [<- _], H2 as [<- _]. cbn [nth List.length] in *. lia.
  - rewrite (oplen_ed _ _ _ (nth 0 bs' 0) N) in L1. cbn [List.length] in *. lia.
Qed.
Lemma from_opcode_eq d px l : dprefix d = px -> dcode d = pbyte px ++ l -> from_opcode d = l.
Proof. unfold from_opcode. intros -> ->. destruct px as [[]|]; reflexivity. Qed.
Lemma same_report m p d d' : well_described d -> well_described d' -> dprefix d = dprefix d' -> dpc d = dpc d' ->
  stored m p (from_opcode d) -> stored m p (from_opcode d') -> d = d'.
Proof.
  intros (c & bs & EC & _ & _ & L & EM & EO) (c' & bs' & EC' & _ & _ & L' & EM' & EO') EP EA S1 S2.
  rewrite (from_opcode_eq _ _ _ eq_refl EC) in S1. rewrite (from_opcode_eq _ _ _ eq_refl EC') in S2.
  cbn [stored] in S1, S2. destruct S1 as [S0 S1], S2 as [S0' S2]. rewrite S0' in S0. subst c'.
  rewrite EP in *. pose proof (stored_same _ _ _ _ S1 S2 (same_length _ _ _ _ _ _ S1 S2 L L')) as <-.
  rewrite EC' in EO'. rewrite EC in EO. rewrite EA in EO. rewrite <- EO' in EO. apply operands_inj in EO.
  destruct d, d'; cbn in *; congruence.
Qed.

(** ** The table *)
Definition table_nf := Eval vm_compute in match table with Some l => l | None => [] end.
Lemma table_eq : table = Some table_nf.
Proof. vm_compute. reflexivity. Qed.
Lemma table_complete : map (fun r => fst (fst r)) table_nf = op_codes.
Proof. vm_compute. reflexivity. Qed.
Definition no_pfx : list (list Z * string * option string) := Eval vm_compute in filter (fun r => negb (is_pfx (fst (fst r)))) table_nf.
(** The bytes of the instruction from the op-code on. *)
Definition full (px : option Prefix) (code : list Z) (b1 b2 : Z) : list Z :=
  match code, px with
  | [0xCB; op], Some _ => [0xCB; b1; op]
  | c :: l, _ => firstn (Z.to_nat (oplen (is_px px) c (nth 0 l 0))) (code ++ [b1; b2])
  | [], _ => []
  end.
Definition row_prefix (px : option Prefix) (row : list Z * string * option string) : option Prefix :=
  used_prefix px (hd 0 (fst (fst row))).
(** The same with the arithmetic abstracted: [fw] a word from its bytes, [fs] a signed byte, [fe] the target of a relative
    jump, [fp] the address before. *)
Section Abstract.
Variables (fw : Z -> Z -> Z) (fs : Z -> Z) (fe : Z -> Z -> Z -> Z) (fp : Z -> Z).
Definition parse_arg_g (px : option Prefix) (pc : Z) (mn arg : string) (code ops : list Z)
  : option (CpuDebugArg * list Z * list Z) :=
  let is := String.eqb arg in
  let const a := Some (a, code, ops) in
  let branch := existsb (String.eqb mn) ["CALL"; "JP"; "JR"; "RET"] in
  if is "nn" then match ops with n :: ops => Some (DImm8 n, code ++ [n], ops) | _ => None end
  else if is "nnnn" then match ops with l :: h :: ops => Some (DImm16 (fw h l), code ++ [l; h], ops) | _ => None end
  else if is "(nnnn)" then match ops with l :: h :: ops => Some (DAddr (ImmAddr (fw h l)), code ++ [l; h], ops) | _ => None end
  else if is "(nn)" then match ops with n :: ops => Some (DPort (ImmPort n), code ++ [n], ops) | _ => None end
  else if is "ee" then
    match ops with e :: ops => Some (DImm16 (fe pc 2 e), code ++ [e], ops) | _ => None end
  else if is "(C)" then const (DPort RegPort)
  else match find_key arg cond_of with
  | Some c => if negb (is "C") || branch then const (DCond c) else const (DReg8 None C)
  | None => match find_key arg ind_of with Some g => const (DAddr (RegAddr g)) | None =>
  if is "(I?)" then option_map (fun p => (DAddr (IndexAddr p None), code, ops)) px
  else if is "(I?+dd)" then
    match ops, px with d :: ops, Some p => Some (DAddr (IndexAddr p (Some (fs d))), insert 2 d code, ops) | _, _ => None end
  else if String.eqb mn "RST" then option_map (fun n => (DImm8 n, code, ops)) (num 16 arg)
  else match find_key arg stk_of, existsb (String.eqb mn) ["PUSH"; "POP"] with
  | Some g, true => const (DStk16 g)
  | _, _ =>
  if is "AF" || is "AF'" then const (DStk16 SAF)
  else if is "BC" then const (DReg16 px BC)
  else if is "DE" then const (DReg16 px DE)
  else if is "HL" then const (DReg16 None HL)
  else if is "I?" then const (DReg16 px HL)
  else if is "SP" then const (DReg16 (if String.eqb mn "LD" then None else px) SP)
  else if is "I?H" then const (DReg8 px H)
  else if is "I?L" then const (DReg8 px L)
  else match find_key arg reg8_of with Some r => const (DReg8 None r) | None =>
  if is "I" then const DI
  else if is "R" then const DR
  else if String.eqb mn "IM" then
    match num 10 arg with Some 0 => const (DIntMode Mode0) | Some 1 => const (DIntMode Mode1) | Some 2 => const (DIntMode Mode2)
                        | _ => None end
  else if existsb (String.eqb mn) ["BIT"; "SET"; "RES"] then
    match num 10 arg with Some n => if (String.length arg =? 1)%nat && (n <? 8) then const (DBit n) else None | None => None end
  else None
  end end end end.
Fixpoint parse_args_g (px : option Prefix) (pc : Z) (mn : string) (args : list string) (code ops : list Z)
  : option (list CpuDebugArg * list Z) :=
  match args with
  | [] => Some ([], code)
  | a :: l => match parse_arg_g px pc mn a code ops with
              | Some (x, code, ops) => option_map (fun r => (x :: fst r, snd r)) (parse_args_g px pc mn l code ops)
              | None => None end
  end.
Definition parse_mnemonic_g (px : option Prefix) (pc : Z) (code : list Z) (text : string) (ops : list Z) : parsed :=
  let go mn args :=
    let code := match px with Some p => prefix_byte p :: code | None => code end in
    match parse_args_g px pc mn args code ops with
    | Some (l, code) =>
        match l, args with
        | [], [] => Report (mkDebug code mn pc px ANone)
        | [DBit n; a; DReg8 None r], _ => Report (mkDebug code mn pc px (ABitOpExt n a r))
        | [DReg8 p d; DReg8 p' s], _ =>
            Report (mkDebug code mn pc px (if String.eqb mn "LD" then ADouble (DReg8 px d) (DReg8 px s)
                                           else ADouble (DReg8 p d) (DReg8 p' s)))
        | [a; b], _ => Report (mkDebug code mn pc px (ADouble a b))
        | [a], _ => Report (mkDebug code mn pc px (ASingle a))
        | _, _ => Panics
        end
    | None => Panics
    end in
  match words text with
  | ["prefix"; "IX"] => IsPrefix Xdd
  | ["prefix"; "IY"] => IsPrefix Yfd
  | [mn] => go mn []
  | [mn; args] | [mn; args; _] => go mn (split ","%char args)
  | _ => Panics
  end.
Definition expected_g (px : option Prefix) (pc : Z) (row : list Z * string * option string) (ops : list Z) : parsed :=
  match row, px with
  | (code, _, Some s), Some _ => parse_mnemonic_g px (fp pc) code s ops
  | (code, s, _), _ => parse_mnemonic_g None pc code s ops
  end.
Definition opnd_val_g (px : option Prefix) (bs : list Z) (p k : Z) (o : opnd) : CpuDebugArg :=
  let n := last bs 0 in let nn := fw (last bs 0) (last (removelast bs) 0) in
  let ix := match px with Some p => p | None => Xdd end in
  match o with
  | O_r r => DReg8 None r
  | O_x r => DReg8 px r
  | O_g g => DReg16 None g
  | O_gx g => DReg16 px g
  | O_s g => DStk16 g
  | O_n => DImm8 n
  | O_k k => DImm8 k
  | O_nn => DImm16 nn
  | O_mnn => DAddr (ImmAddr nn)
  | O_e => DImm16 (fe p k n)
  | O_ind g => DAddr (RegAddr g)
  | O_idx => DAddr (IndexAddr ix (Some (fs (nth 1 bs 0))))
  | O_jidx => DAddr (IndexAddr ix None)
  | O_pn => DPort (ImmPort n)
  | O_pc => DPort RegPort
  | O_cc c => DCond c
  | O_bit b => DBit b
  | O_im m => DIntMode m
  | O_i => DI
  | O_rf => DR
  end.
Definition described_g (px : option Prefix) (c : Z) (bs : list Z) (p : Z) : parsed :=
  let code := pbyte px ++ c :: bs in
  match rebuild (map (opnd_val_g px (c :: bs) p (Z.of_nat (List.length code))) (snd (text px c bs))) with
  | Some args => Report (mkDebug code (fst (text px c bs)) p px args)
  | None => Panics
  end.
Definition row_report_g (px : option Prefix) (pc b1 b2 : Z) (row : list Z * string * option string) : parsed :=
  let ux := row_prefix px row in
  match full ux (fst (fst row)) b1 b2 with
  | c :: bs => described_g ux c bs (match ux with Some _ => fp pc | None => pc end)
  | [] => Panics
  end.
Lemma table_reports_g px pc b1 b2 : map (fun r => expected_g px pc r [b1; b2]) no_pfx = map (row_report_g px pc b1 b2) no_pfx.
Proof. destruct px as [[]|]; vm_compute; reflexivity. Qed.
End Abstract.
Definition row_report (px : option Prefix) (pc b1 b2 : Z) (row : list Z * string * option string) : parsed :=
  let ux := row_prefix px row in
  match full ux (fst (fst row)) b1 b2 with
  | c :: bs => described ux c bs (match ux with Some _ => (pc - 1) mod 65536 | None => pc end)
  | [] => Panics
  end.
Definition row_proper (px : option Prefix) (b1 b2 : Z) (row : list Z * string * option string) : bool :=
  let ux := row_prefix px row in
  match full ux (fst (fst row)) b1 b2 with
  | c :: bs => proper ux c bs && (c =? hd 0 (fst (fst row)))
  | [] => false
  end.
Lemma table_reports px pc b1 b2 : map (fun r => expected px pc r [b1; b2]) no_pfx = map (row_report px pc b1 b2) no_pfx.
Proof.
  exact (table_reports_g (fun h l => 256 * h + l) signed (fun p k e => ((p + k) mod 65536 + signed e) mod 65536)
           (fun p => (p - 1) mod 65536) px pc b1 b2).
Qed.
Lemma table_proper px b1 b2 : forallb (row_proper px b1 b2) no_pfx = true.
Proof. destruct px as [[]|]; vm_compute; reflexivity. Qed.
Lemma table_report px pc b1 b2 :
  forallb (fun r => match row_report px pc b1 b2 r with Report _ => true | _ => false end) no_pfx = true.
Proof. destruct px as [[]|]; vm_compute; reflexivity. Qed.
Lemma map_eq_in {X Y} (f g : X -> Y) l : map f l = map g l -> forall x, In x l -> f x = g x.
Proof. induction l as [|y l IH]; cbn; [easy|]. intros [= E1 E2] x [<-|H]; auto. Qed.
Lemma in_no_pfx row : In row table_nf -> is_pfx (fst (fst row)) = false -> In row no_pfx.
Proof.
  intros H E. assert (no_pfx = filter (fun r => negb (is_pfx (fst (fst r)))) table_nf) as -> by (vm_compute; reflexivity).
  apply filter_In. rewrite E. auto.
Qed.
Lemma row_ok px pc b1 b2 row : In row table_nf -> is_pfx (fst (fst row)) = false ->
  exists d, expected px pc row [b1; b2] = Report d /\ well_described d /\ dprefix d = row_prefix px row /\
    dpc d = match row_prefix px row with Some _ => (pc - 1) mod 65536 | None => pc end /\
    exists bs, from_opcode d = hd 0 (fst (fst row)) :: bs /\ is_prefix (hd 0 (fst (fst row))) = false.
Proof.
  intros HI E. apply in_no_pfx in HI; [|assumption].
  rewrite (map_eq_in _ _ _ (table_reports px pc b1 b2) row HI).
  pose proof (proj1 (forallb_forall _ _) (table_proper px b1 b2) row HI) as HP. unfold row_proper, row_report in *. cbv zeta in *.
  pose proof (proj1 (forallb_forall _ _) (table_report px pc b1 b2) row HI) as HR. unfold row_report in HR. cbv zeta in HR.
  destruct (full _ _ _ _) as [|c bs]; [discriminate|]. apply andb_true_iff in HP. destruct HP as [HP Hc]. apply Z.eqb_eq in Hc. subst c.
  destruct (described _ _ _ _) as [| |d] eqn:ED.
  - discriminate HR.
  - discriminate HR.
  - destruct (described_ok _ _ _ _ _ ED HP) as (W & EP & EA & EC).
    exists d. split; [reflexivity|]. split; [exact W|]. split; [exact EP|]. split; [exact EA|].
    exists bs. split; [exact (from_opcode_eq _ _ _ EP EC)|].
    unfold proper in HP. destruct (is_prefix _); [discriminate HP|reflexivity].
Qed.
Lemma row_pfx px pc row ops : In row table_nf -> is_pfx (fst (fst row)) = true ->
  exists p, fst (fst row) = pbyte (Some p) /\ expected px pc row ops = IsPrefix p.
Proof.
  intros HI E.
  assert (HF : Forall (fun row => is_pfx (fst (fst row)) = true -> forall px pc ops,
      exists p, fst (fst row) = pbyte (Some p) /\ expected px pc row ops = IsPrefix p) table_nf).
  { apply Forall_forall. clear. intros row HI E.
    assert (X : In row (filter (fun r => is_pfx (fst (fst r))) table_nf)) by (apply filter_In; auto).
    assert (Y : filter (fun r => is_pfx (fst (fst r))) table_nf = [([0xDD], "prefix IX", None); ([0xFD], "prefix IY", None)])
      by (vm_compute; reflexivity).
    rewrite Y in X. cbn [In] in X. destruct X as [<-|[<-|[]]]; intros px pc ops; [exists Xdd|exists Yfd]; split; try reflexivity;
      destruct px; vm_compute; reflexivity. }
  exact (proj1 (Forall_forall _ _) HF row HI E px pc ops).
Qed.

(** ** Runs *)
Section Run.
Context {TS WB RB : Type}.
Notation log := (list (ev TS WB RB)).
Lemma told_app (l1 l2 : log) : told (l1 ++ l2) = told l1 ++ told l2.
Proof. apply flat_map_app. Qed.
Lemma told_none (l : log) : Forall silent l -> told l = [].
Proof. induction 1 as [|e l H _ IH]; [reflexivity|]. destruct e; try exact IH. contradiction. Qed.
Lemma fetching_silent (l : log) : Forall fetching l -> Forall silent l.
Proof. apply Forall_impl. intros []; cbn; tauto. Qed.
Lemma bytes_of x y : byte x -> byte y -> (x + 256 * y) mod 256 = x /\ (x + 256 * y) / 256 = y.
Proof. unfold byte. lia. Qed.
Lemma reads_from m (l : log) : (forall a, byte (m a)) -> read_from m l -> Forall (fun r => snd r = m (fst r)) (flat_map code_reads l).
Proof.
  intros Hm. induction 1 as [|e l H _ IH]; [constructor|]. cbn [flat_map]. apply Forall_app. split; [|exact IH].
  destruct e; cbn [code_reads]; repeat constructor; cbn [fst snd]; try exact H.
  - rewrite H. apply bytes_of; apply Hm.
  - rewrite H. apply bytes_of; apply Hm.
Qed.
Lemma stored_addrs m : forall rd p, map fst rd = addrs p (List.length rd) -> Forall (fun r => snd r = m (fst r)) rd -> stored m p (map snd rd).
Proof.
  induction rd as [|[a v] rd IH]; intros p E H; [exact I|]. cbn [map fst List.length addrs] in E. injection E as -> E.
  inversion H as [|? ? H1 H2]; subst. cbn [map snd fst stored] in *. split; [now symmetry|]. now apply IH.
Qed.
Lemma row_told {Q} (FL : Flavour Q) (c : cpu Q) row b1 b2 m : wf c -> halt c = false -> In row table_nf -> (forall a, byte (m a)) ->
  wpl (execute_next (TS:=TS) (WB:=WB) (RB:=RB) FL true c) (fun _ l => undisturbed l -> read_from m l ->
    match expected (prefix c) (pc c) row [b1; b2] with
    | Report d => stored m (pc c) (from_opcode d) -> told l = [d]
    | IsPrefix p => m (pc c) = prefix_byte p -> told l = []
    | Panics => False
    end).
Proof.
  intros Hw HH HI Hm. refine (wpl_mono _ _ _ _ (execute_next_int_rep FL c Hw)). intros x l HL HU HR.
  destruct HL as [(t & l' & -> & _)|HL]; [contradiction|]. rewrite HH in HL. destruct HL as (code & Hc & HF & HL).
  assert (E0 : code = m (pc c)).
  { destruct HF as (l0 & i & t & l1 & -> & _). apply Forall_app in HR. destruct HR as [_ HR]. exact (Forall_inv HR). }
  destruct (is_pfx (fst (fst row))) eqn:EP.
  - destruct (row_pfx (prefix c) (pc c) row [b1; b2] HI EP) as (p & _ & ->). intros EM. rewrite EM in E0. subst code.
    replace (is_prefix (prefix_byte p)) with true in HL by (destruct p; reflexivity). now apply told_none.
  - destruct (row_ok (prefix c) (pc c) b1 b2 row HI EP) as (d & -> & W & EX & EA & bs & EB & EN). intros HS.
    assert (EC : code = hd 0 (fst (fst row))) by (rewrite EB in HS; cbn [stored] in HS; destruct HS; congruence).
    assert (EN' : is_prefix code = false) by (now rewrite EC). cbv zeta in HL. rewrite EN' in HL. destruct HL as (d' & (l1 & l2 & rd & -> & F1 & F2 & E1 & E2 & E3 & E4) & EX' & W').
    rewrite told_app. cbn [told flat_map]. rewrite (told_none l1) by now apply fetching_silent.
    fold (told l2). rewrite (told_none l2) by assumption. cbn [app]. f_equal. symmetry.
    assert (EU : row_prefix (prefix c) row = used_prefix (prefix c) code) by (unfold row_prefix; now rewrite EC).
    apply (same_report m (pc c)); try assumption; [congruence| |].
    + rewrite EA, E4, EU. destruct (used_prefix _ _) as [[]|]; cbn [pbyte List.length]; [reflexivity..|].
      change (Z.of_nat 0) with 0. rewrite Z.sub_0_r. symmetry. apply Z.mod_small. apply Hw.
    + rewrite (from_opcode_eq _ _ _ EX' E3). apply stored_addrs; [assumption|].
      apply Forall_app in HR. destruct HR as [HR _]. rewrite <- E1. now apply reads_from.
Qed.
End Run.
Lemma row_told_in {TS WB RB Q} (FL : Flavour Q) (c : cpu Q) rows row b1 b2 m : wf c -> halt c = false -> table = Some rows -> In row rows ->
  (forall a, byte (m a)) ->
  wpl (execute_next (TS:=TS) (WB:=WB) (RB:=RB) FL true c) (fun _ l => undisturbed l -> read_from m l ->
    match expected (prefix c) (pc c) row [b1; b2] with
    | Report d => stored m (pc c) (from_opcode d) -> told l = [d]
    | IsPrefix p => m (pc c) = prefix_byte p -> told l = []
    | Panics => False
    end).
Proof. intros Hw HH HT HI Hm. rewrite table_eq in HT. injection HT as <-. now apply row_told. Qed.
Lemma nodup_sorted (l : list Z) : (fix up p (l : list Z) := match l with [] => true | x :: l => (p <? x) && up x l end) (-1) l = true -> NoDup l.
Proof.
  set (up := fix up p (l : list Z) := match l with [] => true | x :: l => (p <? x) && up x l end).
  assert (G : forall l p, up p l = true -> NoDup l /\ forall x, In x l -> p < x).
  { clear l. induction l as [|y l IH]; intros p H; [split; [constructor|easy]|]. cbn [up] in H. apply andb_true_iff in H. destruct H as [H1 H2].
    apply Z.ltb_lt in H1. destruct (IH _ H2) as [N B]. split.
    - constructor; [|exact N]. intros HI. specialize (B _ HI). lia.
    - intros x [<-|HI]; [exact H1|]. specialize (B _ HI). lia. }
  intros H. exact (proj1 (G _ _ H)).
Qed.
Lemma every_opcode : exists rows, table = Some rows /\ map (fun r => fst (fst r)) rows = op_codes /\ NoDup op_codes /\
  forall c d, byte c -> byte d -> In (if (c =? 0xCB) || (c =? 0xED) then [c; d] else [c]) op_codes.
Proof.
  exists table_nf. split; [exact table_eq|]. split; [exact table_complete|]. split.
  - apply (NoDup_map_inv (fun l => 256 * hd 0 l + hd 0 (tl l))). apply nodup_sorted. vm_compute. reflexivity.
  - intros c d Hc Hd. unfold op_codes. apply in_flat_map. exists c.
    assert (HB : forall x, byte x -> In x bytes_seq).
    { intros x Hx. unfold bytes_seq. apply in_map_iff. exists (Z.to_nat x). unfold byte in Hx. split; [lia|]. apply in_seq. lia. }
    split; [now apply HB|]. destruct (_ || _); [apply in_map_iff; exists d; auto|now left].
Qed.
