(** Break requests and memory stores of every step. *)
From Coq Require Import ZArith Bool List Lia.
From Verif Require Import Base Flags Ops Parse Cpu Flavours Prog Trace Internal Instr Exec Range Lock
  SpecAlu SpecState SpecIsa SpecCycles SpecStep SpecEffects IsaLink IsaTac IsaCycles IsaFacts IsaControl IsaExec IsaRun Steps AluProofs Control.
Import ListNotations.
Open Scope Z_scope.

Section Spec.
Context {T WB RB : Type}.
Variable ch : chip T.
Notation state := (arch T).
Notation bevs := (list (bev WB RB)).
Definition o_req (o : outcome WB RB) : list (break_cause WB RB) :=
  match o with OOut w => [BWriteIo w] | OReti r => [BReti r] | _ => [] end.
Definition i_stores (i : instr) (f : Z) : list loc :=
  match i with
  | I_EX_SP => [L_top_hi; L_top_lo]
  | I_LD_mr _ | I_LD_mn | I_INC8 None | I_DEC8 None => [L_m]
  | I_LD_rp_A g => match g with BC => [L_BC] | DE => [L_DE] | HL => [L_HL] | SP => [L_top_lo] end
  | I_LD_nn_A => [L_nn]
  | I_LD_mem_HL => [L_nn; L_nn1]
  | I_PUSH _ | I_CALL | I_RST _ => [L_push_hi; L_push_lo]
  | I_CALLcc c => if holds c f then [L_push_hi; L_push_lo] else []
  | _ => []
  end.
Definition d_stores (i : edinstr) : list loc :=
  match i with
  | D_RLD | D_RRD | D_INx _ _ => [L_HL]
  | D_LD_mem_rp _ => [L_nn; L_nn1]
  | D_LDx _ _ => [L_DE]
  | _ => []
  end.
Definition c_stores (o : cbop) : list loc := match o with C_Bit _ => [] | _ => [L_m] end.
Definition s_addr (a : state) (px : option Prefix) (rds : list Z) (l : loc) : Z :=
  let nn := 256 * nth 1 rds 0 + nth 0 rds 0 in
  match l with
  | L_BC => aBC a | L_DE => aDE a | L_HL => aHL a
  | L_nn => nn | L_nn1 => (nn + 1) mod 65536
  | L_m => match px with None => aHL a | Some _ => disp (g_hl px a) (nth 0 rds 0) end
  | L_push_hi => (aSP a - 1) mod 65536 | L_push_lo => (aSP a - 2) mod 65536
  | L_top_hi => (aSP a + 1) mod 65536 | L_top_lo => aSP a
  end.
Ltac unfold_step H :=
  cbv beta iota zeta delta [step done rd16 imm8 imm8x imm16 push pop ea out fetch cb_mem jump] in H.
Lemma step_eff px i q (a : state) (bl : bevs) cl a' o : i <> I_CB -> i <> I_ED ->
  accepts (step ch px i q a) bl cl (a', o) ->
  requests bl = o_req o /\ stored_at bl = map (s_addr a px (reads bl)) (i_stores i (aF a)).
Proof.
  intros N1 N2 H.
  destruct i; try congruence.
  all: try match goal with g : option Reg8 |- _ => destruct g end.
  all: try match goal with c : Condition |- _ => destruct (holds c (aF a)) eqn:EH end.
  all: destruct px; unfold_step H;
    try match type of EH with _ = ?v => match type of H with context [if holds ?c ?f then _ else _] => change (holds c f) with (holds c (aF a)) in H; rewrite EH in H end end;
    accs; repeat match goal with E : (_, _) = (_, _) |- _ => injection E as <- <- end.
  all: try (split; reflexivity).
  all: try match goal with g : Reg16 |- _ => destruct g; split; reflexivity end.
  all: try match goal with x : option WB |- _ => destruct x; split; reflexivity end.
  all: unfold i_stores; rewrite EH; split; reflexivity.
Qed.
Lemma ed_eff i (a : state) (bl : bevs) cl a' o :
  accepts (ed_step ch i a) bl cl (a', o) ->
  requests bl = o_req o /\ stored_at bl = map (s_addr a None (reads bl)) (d_stores i).
Proof.
  intros H.
  destruct i; cbv beta iota zeta delta [ed_step done rd16 imm16 pop out jump again] in H; accs;
    repeat match goal with E : (_, _) = (_, _) |- _ => injection E as <- <- end.
  all: try (split; reflexivity).
  all: try match goal with x : option WB |- _ => destruct x; split; reflexivity end.
  all: match goal with x : option RB |- _ => destruct x; split; reflexivity end.
Qed.
Lemma cb_mem_eff o ad g (a : state) (bl : bevs) cl a' oc :
  accepts (cb_mem ch o ad g a) bl cl (a', oc) ->
  requests bl = o_req oc /\ stored_at bl = map (fun _ => ad) (c_stores o) /\ opcodes bl = [].
Proof.
  intros H. unfold cb_mem in H.
  destruct o; cbv beta iota zeta delta [cb done] in H; accs;
    repeat match goal with E : (_, _) = (_, _) |- _ => injection E as <- <- end; repeat split.
Qed.

(** The tables by op-code byte. *)
Definition loc_eqb (l m : loc) : bool :=
  match l, m with
  | L_BC, L_BC | L_DE, L_DE | L_HL, L_HL | L_nn, L_nn | L_nn1, L_nn1 | L_m, L_m | L_push_hi, L_push_hi
  | L_push_lo, L_push_lo | L_top_hi, L_top_hi | L_top_lo, L_top_lo => true | _, _ => false end.
Fixpoint locs_eqb (l m : list loc) : bool :=
  match l, m with [], [] => true | x :: l, y :: m => loc_eqb x y && locs_eqb l m | _, _ => false end.
Lemma locs_eqb_eq l m : locs_eqb l m = true -> l = m.
Proof.
  revert m. induction l as [|x l IH]; intros [|y m]; cbn [locs_eqb]; try congruence.
  rewrite andb_true_iff. intros [E1 E2]. rewrite (IH _ E2). destruct x, y; cbn in E1; congruence.
Qed.
Definition i_stores0 (i : instr) : list loc :=
  match i with I_CALLcc _ => [L_push_hi; L_push_lo] | I_CB | I_ED => [] | _ => i_stores i 0 end.
Lemma i_stores0_eq i f : i_stores i f = match i with I_CALLcc c => if holds c f then i_stores0 i else [] | I_CB | I_ED => [] | _ => i_stores0 i end.
Proof. destruct i; try reflexivity. Qed.
Lemma main_link c f : isbyte c -> i_stores (decode c) f = if call_not_taken c f then [] else main_stores c.
Proof.
  intros Hc.
  assert (E : locs_eqb (i_stores0 (decode c)) (main_stores c) = true).
  { revert c Hc. apply all_bytesb. vm_compute. reflexivity. }
  apply locs_eqb_eq in E. rewrite <- E. clear E.
  assert (E : match decode c with I_CALLcc _ => existsb (Z.eqb c) [0xC4; 0xCC; 0xD4; 0xDC; 0xE4; 0xEC; 0xF4; 0xFC]
                | _ => negb ((c / 64 =? 3) && (c mod 8 =? 4)) end = true).
  { revert c Hc. apply all_bytesb. vm_compute. reflexivity. }
  assert (G : (forall cc, decode c <> I_CALLcc cc) -> i_stores (decode c) f = if call_not_taken c f then [] else i_stores0 (decode c)).
  { intros N. unfold call_not_taken. destruct (decode c); try (apply negb_true_iff in E; rewrite E; reflexivity). now destruct (N c0). }
  destruct (decode c) eqn:D; try (apply G; discriminate). clear G.
  apply existsb_exists in E. destruct E as (x & HI & EX). apply Z.eqb_eq in EX. subst x. rewrite i_stores0_eq.
  cbn [In] in HI. decompose [or] HI; try contradiction; subst c; injection D as <-; lazy -[Zf Cf Pf Sf];
    match goal with |- context [?F f] => destruct (F f) end; reflexivity.
Qed.
Lemma ed_link c : isbyte c -> d_stores (ed_decode c) = ed_stores c.
Proof. intros Hc. apply locs_eqb_eq. revert c Hc. apply all_bytesb. vm_compute. reflexivity. Qed.
Lemma cb_link c : isbyte c -> c_stores (fst (cb_decode c)) = cb_stores c.
Proof. intros Hc. apply locs_eqb_eq. revert c Hc. apply all_bytesb. vm_compute. reflexivity. Qed.
Lemma cb_reg_link c : isbyte c -> (match snd (cb_decode c) with Some _ => false | None => true end) = (c mod 8 =? 6).
Proof. intros Hc. apply eqb_prop. revert c Hc. apply all_bytesb. vm_compute. reflexivity. Qed.
Lemma decode_cb' c : isbyte c -> (match decode c with I_CB => true | _ => false end) = (c =? 0xCB).
Proof. intros H. apply eqb_prop. revert c H. apply all_bytesb. vm_compute. reflexivity. Qed.

Lemma exec_eff c (a : state) (bl : bevs) cl a' o : isbyte c -> Forall data_byte bl ->
  accepts (exec_op ch c a) bl cl (a', o) ->
  requests bl = o_req o /\
  stored_at bl = map (s_addr a (aPX a) (reads bl)) (instr_stores c (aPX a) (aF a) (opcodes bl) (reads bl)).
Proof.
  intros Hc HD H. unfold exec_op in H. unfold instr_stores.
  rewrite <- (decode_cb' c Hc), <- (decode_ed' c Hc).
  assert (EC : (decode c <> I_CB /\ decode c <> I_ED) \/ decode c = I_CB \/ decode c = I_ED)
    by (destruct (decode c); auto; left; split; discriminate).
  destruct EC as [[N1 N2]|[EC|EC]].
  - apply step_eff in H; [|assumption..]. rewrite main_link in H by exact Hc.
    assert (E1 : match decode c with I_CB => true | _ => false end = false) by (destruct (decode c); congruence).
    assert (E2 : match decode c with I_ED => true | _ => false end = false) by (destruct (decode c); congruence).
    rewrite E1, E2. exact H.
  - rewrite EC in *.
    destruct (aPX a) eqn:EP; cbv beta iota zeta delta [step imm8 imm8x fetch] in H.
    + accs. inversion HD as [|? ? _ D1]. subst. inversion D1 as [|? ? D2 _]. subst. cbn [data_byte] in D2.
      apply cb_mem_eff in H. destruct H as (H1 & H2 & H3). split; [exact H1|]. rewrite cb_link in H2 by exact D2.
      match goal with |- context [reads ?l] => set (rl := reads l) end.
      match type of D2 with isbyte ?v => change (nth 1 rl 0) with v end. match goal with |- stored_at (?e :: ?f :: ?l) = _ => change (stored_at (e :: f :: l)) with (stored_at l) end. rewrite H2.
      unfold cb_stores. destruct (_ =? 1); reflexivity.
    + accs. inversion HD as [|? ? D1 _]. subst. cbn [data_byte] in D1.
      assert (EL := cb_link x D1). assert (ER := cb_reg_link x D1).
      assert (EO : forall r : bevs, nth 0 (opcodes (VOp (aPC (wPX None (wQ (c_begin ch (aQ a)) a))) (IR (inc_R (wPX None (wQ (c_begin ch (aQ a)) a)))) x :: r)) 0 = x) by reflexivity.
      rewrite EO. clear EO. rewrite <- ER.
      destruct (cb_decode x) as [oc [g|]]; cbn [fst snd] in *.
      * unfold done in H. accs. match goal with E : (_, _) = (_, _) |- _ => injection E as <- <- end. split; reflexivity.
      * apply cb_mem_eff in H. destruct H as (H1 & H2 & H3). split; [exact H1|]. rewrite <- EL.
        match goal with |- stored_at (?e :: ?l) = _ => change (stored_at (e :: l)) with (stored_at l) end. rewrite H2. destruct oc; reflexivity.
  - rewrite EC in *.
    assert (G : accepts (fetch (wPX None (wQ (c_begin ch (aQ a)) a)) (fun c a => ed_step ch (ed_decode c) a)) bl cl (a', o))
      by (destruct (aPX a); exact H).
    clear H. unfold fetch in G. accs. inversion HD as [|? ? D1 _]. subst. cbn [data_byte] in D1.
    apply ed_eff in G. destruct G as (H1 & H2). rewrite ed_link in H2 by exact D1. split; [exact H1|].
    match goal with |- context [opcodes (?e :: ?l)] => change (nth 0 (opcodes (e :: l)) 0) with x; change (reads (e :: l)) with (reads l);
      change (stored_at (e :: l)) with (stored_at l) end.
    rewrite H2. unfold ed_stores. repeat match goal with |- context [if ?b then _ else _] => destruct b end; reflexivity.
Qed.
End Spec.
