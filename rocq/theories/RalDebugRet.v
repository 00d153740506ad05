(** C63: returns and calls, as the debugger of the example recognizes them. *)
From Coq Require Import ZArith Bool String List Lia.
From Verif Require Import Base Flags Ops Parse Cpu Flavours Prog Trace Internal Instr Exec Decode Opconsts Sym Range SpecState SpecIsa SpecLog SpecInt SpecDebug
  IsaArith IsaCycles IsaExec Dbg DbgRep DbgRun SafeEntry NoAck NoAckRun SpecForward RalMemory RalBus RalRunner RalDebug SpecRalDebug RalDebugStep.
Import ListNotations.
Open Scope list_scope.
Open Scope Z_scope.

(** ** By their names *)
Definition ret_name (s : string) : bool := (String.eqb s "RET" || String.eqb s "RETN" || String.eqb s "RETI")%string.
Definition call_name (s : string) : bool := (String.eqb s "CALL" || String.eqb s "RST")%string.
Lemma ret_name_spec s : ret_name s = true <-> names_ret s.
Proof. unfold ret_name, names_ret. rewrite !orb_true_iff, !String.eqb_eq. tauto. Qed.
Lemma call_name_spec s : call_name s = true <-> names_call s.
Proof. unfold call_name, names_call. rewrite !orb_true_iff, !String.eqb_eq. tauto. Qed.
Definition is_call (op : Z) : bool := (op =? CALL_OPCODE) || (Z.land op RST_OPMASK =? RST_OPBASE) || (Z.land op CALL_CC_OPMASK =? CALL_CC_OPBASE).
Definition retb (c : Z) : bool := (c =? RET_OPCODE) || (Z.land c RET_CC_OPMASK =? RET_CC_OPBASE).
Definition main_fine (c : Z) : bool :=
  (c =? 0xCB) || (c =? 0xED) || is_prefix c ||
  (Bool.eqb (ret_name (fst (main_text false (decode c)))) (retb c) && Bool.eqb (call_name (fst (main_text false (decode c)))) (is_call c) &&
   implb (indexable c) (negb (ret_name (fst (main_text true (decode c)))) && negb (call_name (fst (main_text true (decode c)))))).
Lemma main_fine_all c : byte c -> main_fine c = true.
Proof. apply all_bytesb. vm_compute. reflexivity. Qed.
Definition ed_fine (c : Z) : bool :=
  Bool.eqb (ret_name (fst (ed_text (ed_decode c)))) (Z.land c RETN_OP2_MASK =? RETN_OP2_BASE) && negb (call_name (fst (ed_text (ed_decode c)))).
Lemma ed_fine_all c : byte c -> ed_fine c = true.
Proof. apply all_bytesb. vm_compute. reflexivity. Qed.
Lemma text_main px c bs : byte c -> c <> 0xCB -> c <> 0xED -> text px c bs = main_text (match px with None => false | _ => true end) (decode c).
Proof.
  intros Hc N1 N2. assert (X : (match decode c with I_CB => c =? 0xCB | I_ED => c =? 0xED | _ => true end) = true) by (revert c Hc N1 N2; intros c Hc _ _; revert c Hc; apply all_bytesb; vm_compute; reflexivity).
  unfold text. destruct (decode c), px; try reflexivity; lia.
Qed.
Lemma cb_names x o : ret_name (fst (cb_text o x)) = false /\ call_name (fst (cb_text o x)) = false.
Proof. destruct o as [[]| | |]; split; reflexivity. Qed.
Lemma xcb_names o g : ret_name (fst (xcb_text o g)) = false /\ call_name (fst (xcb_text o g)) = false.
Proof. unfold xcb_text. destruct o as [[]| | |], g; split; reflexivity. Qed.
(** The op-code of the report tells whether it is a return or a call. *)
Lemma names d : well_described d -> Forall byte (dcode d) ->
  is_ret (dcode d) = Some (ret_name (dmnemonic d)) /\ exists op r, dcode d = op :: r /\ is_call op = call_name (dmnemonic d).
Proof.
  intros (c & bs & E & NP & PX & LN & MN & _) FB. rewrite E, MN. rewrite E in FB. apply Forall_app in FB as [_ FB]. inversion FB as [|? ? HB FB']; subst.
  pose proof (main_fine_all c HB) as MF. unfold main_fine in MF. rewrite NP, orb_false_r in MF.
  destruct (Z.eqb_spec c 0xCB) as [->|NC]; [|destruct (Z.eqb_spec c 0xED) as [->|NE]].
  - assert (NR : ret_name (fst (text (dprefix d) 0xCB bs)) = false /\ call_name (fst (text (dprefix d) 0xCB bs)) = false).
    { unfold text. change (decode 0xCB) with I_CB. cbv iota. destruct (dprefix d); destruct (cb_decode _); [apply xcb_names|apply cb_names]. }
    destruct NR as [-> ->]. destruct (dprefix d) as [[]|]; (split; [reflexivity|]); eexists _, _; split; reflexivity.
  - destruct (dprefix d) as [px|]; [specialize (PX ltac:(discriminate)); discriminate PX|]. unfold text. change (decode 0xED) with I_ED. cbv iota. destruct bs as [|b bs].
    + exfalso. cbn in LN. discriminate LN.
    + cbn [pbyte app nth]. inversion FB' as [|? ? HB' _]; subst. pose proof (ed_fine_all b HB') as X. unfold ed_fine in X. apply andb_true_iff in X as [X1 X2].
      apply eqb_prop in X1. apply negb_true_iff in X2. split; [|eexists _, _; split; [reflexivity|now rewrite X2]].
      rewrite X1. unfold is_ret. change (0xED =? RET_OPCODE) with false. change (0xED =? ED_PREFIX) with true. cbv iota. change (Z.land 0xED RET_CC_OPMASK =? RET_CC_OPBASE) with false. now rewrite orb_false_r.
  - cbn [orb] in MF. rewrite !andb_true_iff in MF. destruct MF as [[MF1 MF2] MF3]. apply eqb_prop in MF1. apply eqb_prop in MF2. rewrite (text_main _ _ _ HB NC NE).
    destruct (dprefix d) as [px|].
    + rewrite (PX ltac:(discriminate)) in MF3. cbn [implb] in MF3. apply andb_true_iff in MF3 as [M1 M2]. apply negb_true_iff in M1. apply negb_true_iff in M2. rewrite M1, M2.
      destruct px; (split; [reflexivity|]); eexists _, _; split; reflexivity.
    + cbn [pbyte app]. rewrite MF1. split; [|eexists _, _; split; [reflexivity|now rewrite MF2]]. unfold is_ret, retb.
      replace (c =? ED_PREFIX) with false by (unfold ED_PREFIX; lia). destruct (c =? RET_OPCODE); reflexivity.
Qed.

(** ** With their conditions *)
Definition cc_of (c : Z) : list Condition :=
  if (Z.land c RET_CC_OPMASK =? RET_CC_OPBASE) || (Z.land c CALL_CC_OPMASK =? CALL_CC_OPBASE) then [cond_from c] else [].
Definition conds (os : list opnd) : list Condition := flat_map (fun o => match o with O_cc c => [c] | _ => [] end) os.
Definition cceqb (a b : Condition) : bool := match a, b with NZ, NZ | CZ, CZ | NC, NC | CC, CC | PO, PO | PE, PE | CP_, CP_ | CM, CM => true | _, _ => false end.
Fixpoint ccsb (a b : list Condition) : bool := match a, b with [], [] => true | x :: a, y :: b => cceqb x y && ccsb a b | _, _ => false end.
Lemma ccsb_eq a : forall b, ccsb a b = true -> a = b.
Proof. induction a as [|x a IH]; intros [|y b]; cbn; try discriminate; [reflexivity|]. intros [H1 H2]%andb_true_iff. f_equal; [destruct x, y; discriminate || reflexivity|now apply IH]. Qed.
Definition cc_fine (c : Z) : bool := implb (retb c || is_call c) (ccsb (conds (snd (main_text false (decode c)))) (cc_of c)).
Lemma cc_fine_all c : byte c -> cc_fine c = true.
Proof. apply all_bytesb. vm_compute. reflexivity. Qed.
Definition ed_cc_fine (c : Z) : bool := implb (ret_name (fst (ed_text (ed_decode c)))) (ccsb (conds (snd (ed_text (ed_decode c)))) []).
Lemma ed_cc_fine_all c : byte c -> ed_cc_fine c = true.
Proof. apply all_bytesb. vm_compute. reflexivity. Qed.
Lemma conds_in px bs nx os cc : In (DCond cc) (map (opnd_val px bs nx) os) <-> In cc (conds os).
Proof.
  unfold conds. rewrite in_map_iff, in_flat_map. split.
  - intros (o & E & HO). exists o. split; [exact HO|]. destruct o; try discriminate E. injection E as <-. now left.
  - intros (o & HO & HC). exists o. split; [|exact HO]. destruct o; try contradiction HC. destruct HC as [->|[]]. reflexivity.
Qed.
Lemma cond_names d : well_described d -> Forall byte (dcode d) -> ret_name (dmnemonic d) || call_name (dmnemonic d) = true ->
  exists op r, dcode d = op :: r /\ forall cc, In (DCond cc) (operands (dargs d)) <-> In cc (cc_of op).
Proof.
  intros WD FB HN. destruct (names d WD FB) as [N1 (op & r & E1 & N2)]. exists op, r. split; [exact E1|]. intros cc.
  destruct WD as (c & bs & E & NP & PX & LN & MN & ->). rewrite conds_in. rewrite E in FB. apply Forall_app in FB as [_ FB]. inversion FB as [|? ? HB FB']; subst.
  rewrite <- N2 in HN. rewrite E1 in N1. destruct (dprefix d) as [px|].
  - exfalso. rewrite E1 in E. assert (O : op = 0xDD \/ op = 0xFD) by (destruct px; cbn in E; injection E; auto). clear - HN N1 O.
    destruct O as [-> | ->]; cbn in N1; injection N1 as N1; rewrite <- N1 in HN; discriminate HN.
  - cbn [pbyte app] in E. rewrite E1 in E. injection E as -> ->. destruct (Z.eqb_spec c 0xCB) as [->|NC]; [|destruct (Z.eqb_spec c 0xED) as [->|NE]].
    + exfalso. cbn in N1. injection N1 as N1. rewrite <- N1 in HN. discriminate HN.
    + unfold text in *. change (decode 0xED) with I_ED in *. cbv iota in *. destruct bs as [|b bs]; [exfalso; cbn in LN; discriminate LN|]. cbn [nth] in *.
      inversion FB' as [|? ? HB' _]; subst. pose proof (ed_cc_fine_all b HB') as X. unfold ed_cc_fine in X. rewrite MN in HN. change (is_call 0xED) with false in HN. rewrite orb_false_r in HN.
      rewrite HN in X. apply ccsb_eq in X. rewrite X. reflexivity.
    + rewrite (text_main _ _ _ HB NC NE). pose proof (cc_fine_all c HB) as X. unfold cc_fine in X. unfold is_ret in N1. replace (c =? ED_PREFIX) with false in N1 by (unfold ED_PREFIX; lia).
      replace (retb c || is_call c) with true in X; [|unfold retb; destruct (c =? RET_OPCODE); injection N1 as N1; rewrite <- N1 in HN; now rewrite <- HN].
      apply ccsb_eq in X. rewrite X. reflexivity.
Qed.
Lemma ret_and_cc op : byte op -> ((Z.land op CALL_CC_OPMASK =? CALL_CC_OPBASE) && (Z.land op RET_CC_OPMASK =? RET_CC_OPBASE)) = false /\ (is_call op && retb op) = false /\ retb 0xED = false.
Proof.
  intros H. assert (X : negb ((Z.land op CALL_CC_OPMASK =? CALL_CC_OPBASE) && (Z.land op RET_CC_OPMASK =? RET_CC_OPBASE)) && negb (is_call op && retb op) = true) by (revert op H; apply all_bytesb; vm_compute; reflexivity).
  apply andb_true_iff in X as [X1 X2]. apply negb_true_iff in X1. apply negb_true_iff in X2. repeat split; assumption.
Qed.
Section T.
Context {Q : Type}.
(** [was_just_a_ret] and [was_just_a_call] do what they are named for. *)
Lemma just_ret d (c : cpu Q) : well_described d -> Forall byte (dcode d) ->
  exists b, was_just_a_ret d c = Some b /\ is_ret (dcode d) = Some (ret_name (dmnemonic d)) /\
    b = ret_name (dmnemonic d) && negb (not_taken (dcode d) c) /\ (b = true <-> returns d c).
Proof.
  intros WD FB. destruct (names d WD FB) as [N1 (op & r & E1 & N2)]. eexists. unfold was_just_a_ret. rewrite N1. split; [reflexivity|]. split; [reflexivity|]. split; [reflexivity|].
  unfold returns. rewrite <- ret_name_spec, andb_true_iff. destruct (ret_name (dmnemonic d)) eqn:RN; [|intuition discriminate].
  destruct (cond_names d WD FB) as (op' & r' & E2 & HC); [now rewrite RN|]. rewrite E1 in E2. injection E2 as <- <-. rewrite E1 in *. inversion FB as [|? ? HB _]; subst.
  destruct (ret_and_cc op HB) as (X1 & X2 & _). unfold not_taken, cc_of in *. destruct (Z.land op RET_CC_OPMASK =? RET_CC_OPBASE); cbn [orb andb negb] in *.
  - rewrite negb_involutive, sat_holds. split.
    + intros [_ H]. split; [reflexivity|]. intros cc HI. apply HC in HI. destruct HI as [<-|[]]. exact H.
    + intros [_ H]. split; [reflexivity|]. apply H, HC. now left.
  - split; [|intuition]. intros _. split; [reflexivity|]. intros cc HI. apply HC in HI. destruct (Z.land op CALL_CC_OPMASK =? CALL_CC_OPBASE) eqn:CC0; [|destruct HI].
    exfalso. assert (IC : is_call op = true) by (unfold is_call; rewrite CC0; now rewrite !orb_true_r). rewrite IC in X2. cbn in X2. unfold is_ret in N1. unfold retb in X2.
    destruct (op =? RET_OPCODE); [discriminate X2|]. destruct (Z.eqb_spec op ED_PREFIX) as [->|]; [discriminate IC|]. injection N1 as N1. cbn [orb] in X2. congruence.
Qed.
Lemma just_call d (c : cpu Q) : well_described d -> Forall byte (dcode d) -> exists b, was_just_a_call d c = Some b /\ (b = true <-> calls d c).
Proof.
  intros WD FB. destruct (names d WD FB) as [N1 (op & r & E1 & N2)]. unfold was_just_a_call. rewrite E1. eexists. split; [reflexivity|].
  unfold calls. rewrite <- call_name_spec, <- N2. destruct (is_call op) eqn:IC.
  - destruct (cond_names d WD FB) as (op' & r' & E2 & HC); [rewrite <- N2; apply orb_true_r|]. rewrite E1 in E2. injection E2 as <- <-. rewrite E1 in *. inversion FB as [|? ? HB _]; subst.
    destruct (ret_and_cc op HB) as (X1 & X2 & _). rewrite IC in X2. unfold retb in X2. cbn in X2. apply orb_false_iff in X2 as [_ X2]. unfold cc_of in HC. rewrite X2 in HC. cbn [orb] in HC.
    assert (Y : (Z.land op CALL_CC_OPMASK =? CALL_CC_OPBASE) = true -> (op =? CALL_OPCODE) = false /\ (Z.land op RST_OPMASK =? RST_OPBASE) = false).
    { assert (G : implb (Z.land op CALL_CC_OPMASK =? CALL_CC_OPBASE) (negb (op =? CALL_OPCODE) && negb (Z.land op RST_OPMASK =? RST_OPBASE)) = true) by (clear - HB; revert op HB; apply all_bytesb; vm_compute; reflexivity).
      intros Y. rewrite Y in G. cbn [implb] in G. apply andb_true_iff in G as [G1 G2]. split; now apply negb_true_iff. }
    unfold is_call in IC. destruct (Z.land op CALL_CC_OPMASK =? CALL_CC_OPBASE).
    + destruct (Y eq_refl) as [-> ->]. rewrite sat_holds. split.
      * intros H. split; [reflexivity|]. intros cc HI. apply HC in HI. destruct HI as [<-|[]]. exact H.
      * intros [_ H]. apply H, HC. now left.
    + clear Y. rewrite orb_false_r in IC. split; [|intros _; destruct (op =? CALL_OPCODE); [reflexivity|]; cbn [orb] in IC; now rewrite IC].
      intros _. split; [reflexivity|]. intros cc HI. apply HC in HI. destruct HI.
  - unfold is_call in IC. apply orb_false_iff in IC as [IC I3]. apply orb_false_iff in IC as [I1 I2]. rewrite I1, I2, I3. intuition discriminate.
Qed.
End T.
