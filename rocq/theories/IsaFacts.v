(** Facts about every run of the specification trees: control state, R, outcomes. *)
From Coq Require Import ZArith Bool List Lia.
From Verif Require Import Base Parse SpecAlu SpecState SpecIsa SpecCycles SpecStep IsaCycles.
Import ListNotations.
Open Scope Z_scope.

Section Facts.
Context {T WB RB : Type}.
Variable ch : chip T.
Notation state := (arch T).
Notation bevs := (list (bev WB RB)).

(** Everything but the ordinary registers. *)
Record ctl := mkCtl { kPX : option Prefix; kEI : bool; kHALT : bool; kIFF1 : bool; kIFF2 : bool;
  kIM : InterruptMode; kI : Z; kR : Z }.
Definition ctl_of (a : state) : ctl :=
  mkCtl (aPX a) (aEI a) (aHALT a) (aIFF1 a) (aIFF2 a) (aIM a) (aI a) (aR a).
Definition step_ctl (i : instr) (k : ctl) : ctl :=
  match i with
  | I_HALT => mkCtl (kPX k) (kEI k) true (kIFF1 k) (kIFF2 k) (kIM k) (kI k) (kR k)
  | I_DI => mkCtl (kPX k) (kEI k) (kHALT k) false false (kIM k) (kI k) (kR k)
  | I_EI => mkCtl (kPX k) true (kHALT k) true true (kIM k) (kI k) (kR k)
  | I_PFX p => mkCtl (Some p) (kEI k) (kHALT k) (kIFF1 k) (kIFF2 k) (kIM k) (kI k) (kR k)
  | _ => k
  end.
Definition ed_ctl (i : edinstr) (acc : Z) (k : ctl) : ctl :=
  match i with
  | D_IM m => mkCtl (kPX k) (kEI k) (kHALT k) (kIFF1 k) (kIFF2 k) m (kI k) (kR k)
  | D_RETN | D_RETI => mkCtl (kPX k) (kEI k) (kHALT k) (kIFF2 k) (kIFF2 k) (kIM k) (kI k) (kR k)
  | D_LD_I_A => mkCtl (kPX k) (kEI k) (kHALT k) (kIFF1 k) (kIFF2 k) (kIM k) acc (kR k)
  | D_LD_R_A => mkCtl (kPX k) (kEI k) (kHALT k) (kIFF1 k) (kIFF2 k) (kIM k) (kI k) acc
  | _ => k
  end.
Definition outs (i : instr) (o : outcome WB RB) : Prop :=
  match i with
  | I_HALT => o = OHalt | I_EI => o = OEI
  | I_OUT_A => o = ONext \/ exists w, o = OOut w
  | I_ED => o <> OHalt /\ o <> OEI
  | _ => o = ONext
  end.
Lemma ctl_s_hl px v a : ctl_of (s_hl px v a) = ctl_of a.
Proof. destruct px as [[]|]; reflexivity. Qed.
Lemma ctl_s_r px g v a : ctl_of (s_r px g v a) = ctl_of a.
Proof. destruct g; try reflexivity; apply ctl_s_hl. Qed.
Lemma ctl_s_rp px g v a : ctl_of (s_rp px g v a) = ctl_of a.
Proof. destruct g; try reflexivity; apply ctl_s_hl. Qed.
Lemma ctl_s_rp2 px g v a : ctl_of (s_rp2 px g v a) = ctl_of a.
Proof. destruct g; try reflexivity; apply ctl_s_hl. Qed.
Lemma ctl_wWZ v (a : state) : ctl_of (wWZ v a) = ctl_of a. Proof. reflexivity. Qed.
Lemma ctl_wPC v (a : state) : ctl_of (wPC v a) = ctl_of a. Proof. reflexivity. Qed.
Lemma ctl_wSP v (a : state) : ctl_of (wSP v a) = ctl_of a. Proof. reflexivity. Qed.
Lemma ctl_wA v (a : state) : ctl_of (wA v a) = ctl_of a. Proof. reflexivity. Qed.
Lemma ctl_s_f v (a : state) : ctl_of (s_f ch v a) = ctl_of a. Proof. reflexivity. Qed.
Lemma ctl_cb o v xy a : ctl_of (snd (cb ch o v xy a)) = ctl_of a.
Proof. destruct o; reflexivity. Qed.

Ltac unfold_step H :=
  cbv beta iota zeta delta [step done rd16 imm8 imm8x imm16 push pop ea out fetch cb_mem jump] in H.
Ltac cc := rewrite ?ctl_wWZ, ?ctl_wPC, ?ctl_wSP, ?ctl_wA, ?ctl_s_f, ?ctl_s_r, ?ctl_s_rp, ?ctl_s_rp2, ?ctl_s_hl,
  ?ctl_wWZ, ?ctl_wPC, ?ctl_wSP, ?ctl_wA, ?ctl_s_f, ?ctl_wWZ, ?ctl_wPC, ?ctl_wSP; try reflexivity.
Ltac m1c := unfold m1s; split; repeat match goal with w : option Z |- _ => destruct w end; reflexivity.

Lemma step_facts px i q (a : state) (bl : bevs) cl a' o : i <> I_CB -> i <> I_ED ->
  accepts (step ch px i q a) bl cl (a', o) ->
  ctl_of a' = step_ctl i (ctl_of a) /\ (m1s cl = 0 /\ opcodes bl = []) /\ outs i o.
Proof.
  intros N1 N2 H.
  destruct i; try congruence.
  all: try match goal with g : option Reg8 |- _ => destruct g end.
  all: destruct px; unfold_step H; accs;
    repeat match goal with E : (_, _) = (_, _) |- _ => injection E as <- <- end;
    (split; [|split; [m1c|]]); cbn [step_ctl outs]; cc.
  all: try match goal with p : Prefix |- _ => destruct p; reflexivity end.
  all: try (match goal with |- context [if ?b then _ else _] => destruct b; reflexivity end).
  all: match goal with x : option WB |- _ => destruct x; eauto end.
Qed.
Lemma ed_facts i (a : state) (bl : bevs) cl a' o :
  accepts (ed_step ch i a) bl cl (a', o) ->
  ctl_of a' = ed_ctl i (aA a) (ctl_of a) /\ (m1s cl = 0 /\ opcodes bl = []) /\ (o <> OHalt /\ o <> OEI).
Proof.
  intros H.
  destruct i; cbv beta iota zeta delta [ed_step done rd16 imm16 pop out jump again] in H; accs;
    repeat match goal with E : (_, _) = (_, _) |- _ => injection E as <- <- end;
    (split; [|split; [m1c|]]); cbn [ed_ctl]; cc.
  all: try match goal with |- context [s_r _ ?g _ _] => destruct g; reflexivity end.
  all: try match goal with g : option Reg8 |- _ => destruct g; cc end.
  all: try match goal with x : option WB |- _ => destruct x end.
  all: try match goal with x : option RB |- _ => destruct x end.
  all: split; discriminate.
Qed.
Lemma r_plus_0 r : r_plus 0 r = r.
Proof. unfold r_plus. rewrite Z.add_0_r, Z.mod_mod by lia. pose proof (Z.div_mod r 128). lia. Qed.
Lemma r_plus_plus n m r : r_plus n (r_plus m r) = r_plus (m + n) r.
Proof.
  unfold r_plus. set (x := (r mod 128 + m) mod 128). assert (0 <= x < 128) by (apply Z.mod_pos_bound; lia).
  rewrite (Z.mul_comm 128 (r / 128)), Z.div_add_l by lia. rewrite (Z.div_small x) by lia.
  rewrite (Z.add_comm (r / 128 * 128)), Z.mod_add by lia. rewrite (Z.mod_small x) by lia.
  unfold x. rewrite Zplus_mod_idemp_l. replace (r mod 128 + m + n) with (r mod 128 + (m + n)) by lia. lia.
Qed.
Definition k_r (n : Z) (k : ctl) : ctl := mkCtl (kPX k) (kEI k) (kHALT k) (kIFF1 k) (kIFF2 k) (kIM k) (kI k) (r_plus n (kR k)).
Lemma ctl_inc_R (a : state) : ctl_of (inc_R a) = k_r 1 (ctl_of a).
Proof. reflexivity. Qed.
Lemma m1s_app l1 l2 : m1s (l1 ++ l2) = m1s l1 + m1s l2.
Proof. unfold m1s, sum. induction l1; cbn [app map fold_right] in *; lia. Qed.
Lemma m1s_cons e l : m1s (e :: l) = match e with TM1 _ | TAck _ => 1 | _ => 0 end + m1s l.
Proof. reflexivity. Qed.
Lemma cb_mem_facts o ad g (a : state) (bl : bevs) cl a' oc :
  accepts (cb_mem ch o ad g a) bl cl (a', oc) -> ctl_of a' = ctl_of a /\ (m1s cl = 0 /\ opcodes bl = []) /\ oc = ONext.
Proof.
  intros H. unfold cb_mem in H.
  destruct o; cbv beta iota zeta delta [cb done] in H; accs;
    repeat match goal with E : (_, _) = (_, _) |- _ => injection E as <- <- end;
    (split; [|split; [m1c|reflexivity]]); try reflexivity; (destruct g; cc).
Qed.
(** The op-code of an ED instruction is the next one fetched. *)
Definition first_op (bl : bevs) : Z := match bl with VOp _ _ v :: _ => v | _ => 0 end.
Definition k_px0 (k : ctl) : ctl := mkCtl None (kEI k) (kHALT k) (kIFF1 k) (kIFF2 k) (kIM k) (kI k) (kR k).
Definition exec_ctl (c : Z) (a : state) (bl : bevs) (k : ctl) : ctl :=
  match decode c with
  | I_ED => ed_ctl (ed_decode (first_op bl)) (aA a) k
  | i => step_ctl i k
  end.
Lemma exec_facts c (a : state) (bl : bevs) cl a' o : isbyte c -> Forall data_byte bl ->
  accepts (exec_op ch c a) bl cl (a', o) ->
  ctl_of a' = exec_ctl c a bl (k_r (m1s cl) (k_px0 (ctl_of a))) /\ outs (decode c) o /\
  (decode c = I_ED -> isbyte (first_op bl)) /\
  opcodes bl = match decode c with I_ED => [first_op bl]
               | I_CB => match aPX a with None => [first_op bl] | Some _ => [] end | _ => [] end.
Proof.
  intros Hc HD H. unfold exec_op in H.
  assert (EC : (decode c <> I_CB /\ decode c <> I_ED) \/ decode c = I_CB \/ decode c = I_ED)
    by (destruct (decode c); auto; left; split; discriminate).
  unfold exec_ctl. destruct EC as [[N1 N2]|[EC|EC]].
  - apply step_facts in H; [|assumption..]. destruct H as (H1 & [H2 HO] & H3). rewrite H1, H2.
    assert (E : k_r 0 (k_px0 (ctl_of a)) = ctl_of (wPX None (wQ (c_begin ch (aQ a)) a)))
      by (unfold k_r; cbn [k_px0 kPX kEI kHALT kIFF1 kIFF2 kIM kI kR]; rewrite r_plus_0; reflexivity).
    rewrite E. split; [|split; [exact H3|split; [now intros|]]]; destruct (decode c); try reflexivity; congruence.
  - rewrite EC in *. cbn [step_ctl outs].
    destruct (aPX a); cbv beta iota zeta delta [step imm8 imm8x fetch] in H.
    + accs. apply cb_mem_facts in H. destruct H as (H1 & [H2 HO] & ->). rewrite H1, ?m1s_cons, H2.
      unfold k_r. cbn [k_px0 kPX kEI kHALT kIFF1 kIFF2 kIM kI kR]. rewrite r_plus_0.
      split; [reflexivity|]. split; [reflexivity|]. split; [discriminate|]. exact HO || (cbn; f_equal; exact HO).
    + accs. destruct (cb_decode x) as [oc [g|]].
      * unfold done in H. accs. match goal with E : (_, _) = (_, _) |- _ => injection E as <- <- end.
        split; [|split; [reflexivity|split; [discriminate|reflexivity]]]. unfold cb_reg.
        assert (G : forall p : option Z * state, ctl_of (snd p) = k_r 1 (k_px0 (ctl_of a)) ->
           ctl_of (let (o1, a1) := p in match o1 with Some y => s_r None g y a1 | None => a1 end) = k_r 1 (k_px0 (ctl_of a)))
           by (intros [[y|] a1] E; cbn [snd] in E; rewrite ?ctl_s_r; exact E).
        apply G. rewrite ctl_cb. reflexivity.
      * apply cb_mem_facts in H. destruct H as (H1 & [H2 HO] & ->). rewrite H1, m1s_cons, H2.
        split; [reflexivity|]. split; [reflexivity|]. split; [discriminate|]. exact HO || (cbn; f_equal; exact HO).
  - rewrite EC in *. cbn [outs].
    assert (G : accepts (fetch (wPX None (wQ (c_begin ch (aQ a)) a)) (fun c a => ed_step ch (ed_decode c) a)) bl cl (a', o))
      by (destruct (aPX a); exact H).
    clear H. unfold fetch in G. accs. apply ed_facts in G. destruct G as (H1 & [H2 HO] & H3).
    rewrite H1, m1s_cons, H2. cbn [first_op]. split; [reflexivity|]. split; [exact H3|].
    split; [intros _; inversion HD; assumption|]. cbn. f_equal. exact HO.
Qed.
End Facts.
