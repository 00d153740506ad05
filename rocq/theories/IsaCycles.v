(** Proofs: every run accepted by a specification tree takes the published number of T-states. *)
From Coq Require Import ZArith Bool List Lia.
From Verif Require Import Base Parse SpecAlu SpecState SpecIsa SpecCycles.
Import ListNotations.
Open Scope Z_scope.

(** Breaks up an accepted run of a tree. *)
Section Inv.
Context {WB RB X : Type}.
Implicit Types (bl : list (bev WB RB)) (cl : list tev) (x : X).
Local Ltac go := intros H; cbn [accepts] in H;
  repeat match type of H with
  | match ?l with _ => _ end => destruct l; try contradiction
  end; decompose [and] H; subst; eauto 12.
Lemma acc_ret y bl cl x : accepts (SRet y) bl cl x -> bl = [] /\ cl = [] /\ y = x.
Proof. exact (fun H => H). Qed.
Lemma acc_m1 a i k bl cl x : accepts (SM1 a i k) bl cl x ->
  exists v bl' cl', bl = VOp a i v :: bl' /\ cl = TM1 a :: cl' /\ accepts (k v) bl' cl' x.
Proof. go. Qed.
Lemma acc_idle a k bl cl x : accepts (SIdleM1 a k) bl cl x ->
  exists cl', cl = TM1 a :: cl' /\ accepts k bl cl' x.
Proof. go. Qed.
Lemma acc_rd a k bl cl x : accepts (SRd a k) bl cl x ->
  exists v bl' cl', bl = VRd a v :: bl' /\ cl = TMreq a :: cl' /\ accepts (k v) bl' cl' x.
Proof. go. Qed.
Lemma acc_skip a k bl cl x : accepts (SSkip a k) bl cl x ->
  exists cl', cl = TMreq a :: cl' /\ accepts k bl cl' x.
Proof. go. Qed.
Lemma acc_wr a v k bl cl x : accepts (SWr a v k) bl cl x ->
  exists bl' cl', bl = VWr a v :: bl' /\ cl = TMreq a :: cl' /\ accepts k bl' cl' x.
Proof. go. Qed.
Lemma acc_x a n k bl cl x : accepts (SX a n k) bl cl x ->
  exists cl', cl = TX a n :: cl' /\ accepts k bl cl' x.
Proof. go. Qed.
Lemma acc_in p k bl cl x : accepts (SIn p k) bl cl x ->
  exists v w bl' cl', bl = VIn p v w :: bl' /\ cl = TIo p :: match w with Some n => [TWait p n] | None => [] end ++ cl' /\
    accepts (k v) bl' cl' x.
Proof.
  intros H. cbn [accepts] in H. destruct bl as [|[] bl]; try contradiction. destruct cl as [|[] cl]; try contradiction.
  destruct H as (-> & -> & H). exists v, w, bl. destruct w; cbn [waited] in H; [|exists cl; auto].
  destruct cl as [|[] cl]; try contradiction. destruct H as (-> & -> & H). exists cl. auto.
Qed.
Lemma acc_out p d k bl cl x : accepts (SOut p d k) bl cl x ->
  exists b w bl' cl', bl = VOut p d b w :: bl' /\ cl = TIo p :: match w with Some n => [TWait p n] | None => [] end ++ cl' /\
    accepts (k b) bl' cl' x.
Proof.
  intros H. cbn [accepts] in H. destruct bl as [|[] bl]; try contradiction. destruct cl as [|[] cl]; try contradiction.
  destruct H as (-> & -> & -> & H). exists b, w, bl. destruct w; cbn [waited] in H; [|exists cl; auto].
  destruct cl as [|[] cl]; try contradiction. destruct H as (-> & -> & H). exists cl. auto.
Qed.
Lemma acc_irq k bl cl x : accepts (SIrq k) bl cl x -> exists b bl', bl = VIrq b :: bl' /\ accepts (k b) bl' cl x.
Proof. go. Qed.
Lemma acc_reti a k bl cl x : accepts (SReti a k) bl cl x ->
  exists b bl', bl = VReti a b :: bl' /\ accepts (k b) bl' cl x.
Proof. go. Qed.
Lemma acc_ack a k bl cl x : accepts (SAck a k) bl cl x ->
  exists v w bl' cl', bl = VAck a v w :: bl' /\ cl = TAck a :: match w with Some n => [TWait a n] | None => [] end ++ cl' /\
    accepts (k v) bl' cl' x.
Proof.
  intros H. cbn [accepts] in H. destruct bl as [|[] bl]; try contradiction. destruct cl as [|[] cl]; try contradiction.
  destruct H as (-> & -> & H). exists v, w, bl. destruct w; cbn [waited] in H; [|exists cl; auto].
  destruct cl as [|[] cl]; try contradiction. destruct H as (-> & -> & H). exists cl. auto.
Qed.
(** The bus accesses determine the machine cycles and the end state. *)
Lemma acc_det (t : cyc WB RB X) : forall bl cl cl' x x', accepts t bl cl x -> accepts t bl cl' x' -> cl = cl' /\ x = x'.
Proof.
  induction t; intros bl cl cl' y y' H1 H2.
  - apply acc_ret in H1, H2. destruct H1 as (_ & -> & <-), H2 as (_ & -> & <-). auto.
  - apply acc_m1 in H1, H2. destruct H1 as (v & b1 & c1 & E1 & -> & H1), H2 as (v' & b2 & c2 & E2 & -> & H2).
    rewrite E1 in E2. injection E2 as <- <-. destruct (H _ _ _ _ _ _ H1 H2) as [-> ->]. auto.
  - apply acc_idle in H1, H2. destruct H1 as (c1 & -> & H1), H2 as (c2 & -> & H2).
    destruct (IHt _ _ _ _ _ H1 H2) as [-> ->]. auto.
  - apply acc_rd in H1, H2. destruct H1 as (v & b1 & c1 & E1 & -> & H1), H2 as (v' & b2 & c2 & E2 & -> & H2).
    rewrite E1 in E2. injection E2 as <- <-. destruct (H _ _ _ _ _ _ H1 H2) as [-> ->]. auto.
  - apply acc_skip in H1, H2. destruct H1 as (c1 & -> & H1), H2 as (c2 & -> & H2).
    destruct (IHt _ _ _ _ _ H1 H2) as [-> ->]. auto.
  - apply acc_wr in H1, H2. destruct H1 as (b1 & c1 & E1 & -> & H1), H2 as (b2 & c2 & E2 & -> & H2).
    rewrite E1 in E2. injection E2 as <-. destruct (IHt _ _ _ _ _ H1 H2) as [-> ->]. auto.
  - apply acc_x in H1, H2. destruct H1 as (c1 & -> & H1), H2 as (c2 & -> & H2).
    destruct (IHt _ _ _ _ _ H1 H2) as [-> ->]. auto.
  - apply acc_in in H1, H2. destruct H1 as (v & w & b1 & c1 & E1 & -> & H1), H2 as (v' & w' & b2 & c2 & E2 & -> & H2).
    rewrite E1 in E2. injection E2 as <- <- <-. destruct (H _ _ _ _ _ _ H1 H2) as [-> ->]. auto.
  - apply acc_out in H1, H2. destruct H1 as (v' & w & b1 & c1 & E1 & -> & H1), H2 as (v'' & w' & b2 & c2 & E2 & -> & H2).
    rewrite E1 in E2. injection E2 as <- <- <-. destruct (H _ _ _ _ _ _ H1 H2) as [-> ->]. auto.
  - apply acc_irq in H1, H2. destruct H1 as (v & b1 & E1 & H1), H2 as (v' & b2 & E2 & H2).
    rewrite E1 in E2. injection E2 as <- <-. exact (H _ _ _ _ _ _ H1 H2).
  - apply acc_reti in H1, H2. destruct H1 as (v & b1 & E1 & H1), H2 as (v' & b2 & E2 & H2).
    rewrite E1 in E2. injection E2 as <- <-. exact (H _ _ _ _ _ _ H1 H2).
  - apply acc_ack in H1, H2. destruct H1 as (v & w & b1 & c1 & E1 & -> & H1), H2 as (v' & w' & b2 & c2 & E2 & -> & H2).
    rewrite E1 in E2. injection E2 as <- <- <-. destruct (H _ _ _ _ _ _ H1 H2) as [-> ->]. auto.
Qed.
End Inv.
Ltac acc1 := match goal with
  | H : accepts (SRet _) _ _ _ |- _ => apply acc_ret in H; destruct H as (? & ? & ?); subst
  | H : accepts (SM1 _ _ _) _ _ _ |- _ => apply acc_m1 in H; destruct H as (? & ? & ? & ? & ? & H); subst
  | H : accepts (SIdleM1 _ _) _ _ _ |- _ => apply acc_idle in H; destruct H as (? & ? & H); subst
  | H : accepts (SRd _ _) _ _ _ |- _ => apply acc_rd in H; destruct H as (? & ? & ? & ? & ? & H); subst
  | H : accepts (SSkip _ _) _ _ _ |- _ => apply acc_skip in H; destruct H as (? & ? & H); subst
  | H : accepts (SWr _ _ _) _ _ _ |- _ => apply acc_wr in H; destruct H as (? & ? & ? & ? & H); subst
  | H : accepts (SX _ _ _) _ _ _ |- _ => apply acc_x in H; destruct H as (? & ? & H); subst
  | H : accepts (SIn _ _) _ _ _ |- _ => apply acc_in in H; destruct H as (? & ? & ? & ? & ? & ? & H); subst
  | H : accepts (SOut _ _ _) _ _ _ |- _ => apply acc_out in H; destruct H as (? & ? & ? & ? & ? & ? & H); subst
  | H : accepts (SIrq _) _ _ _ |- _ => apply acc_irq in H; destruct H as (? & ? & ? & H); subst
  | H : accepts (SReti _ _) _ _ _ |- _ => apply acc_reti in H; destruct H as (? & ? & ? & H); subst
  | H : accepts (SAck _ _) _ _ _ |- _ => apply acc_ack in H; destruct H as (? & ? & ? & ? & ? & ? & H); subst
  | H : accepts (if ?b then _ else _) _ _ _ |- _ => destruct b eqn:?
  end.
Ltac accs := repeat (acc1; cbv beta zeta in * ).

Section Cycles.
Context {T WB RB : Type}.
Variable ch : chip T.
Notation state := (arch T).
Notation bevs := (list (bev WB RB)).

(** T-states of an instruction other than CB.., ED.., the op-code fetch included. *)
Definition t_ast (px : option Prefix) (i : instr) (f b : Z) : Z :=
  let m (n : Z) := match px with None => n | Some _ => n + 8 end in
  match i with
  | I_EX_SP => 19 | I_LD_rm _ | I_LD_mr _ => m 7 | I_LD_rn _ => 7
  | I_LD_mn => match px with None => 10 | Some _ => 15 end
  | I_LD_A_rp _ | I_LD_rp_A _ => 7 | I_LD_A_nn | I_LD_nn_A => 13 | I_LD_rp_nn _ => 10
  | I_LD_HL_mem | I_LD_mem_HL => 16 | I_LD_SP_HL => 6 | I_PUSH _ => 11 | I_POP _ => 10
  | I_ALU_m _ => m 7 | I_ALU_n _ => 7
  | I_INC8 None | I_DEC8 None => m 11
  | I_INC16 _ | I_DEC16 _ => 6 | I_ADD16 _ => 11
  | I_JP | I_JPcc _ => 10 | I_JR => 12
  | I_JRcc c => if holds c f then 12 else 7
  | I_DJNZ => if b =? 1 then 8 else 13
  | I_CALL => 17 | I_CALLcc c => if holds c f then 17 else 10
  | I_RET => 10 | I_RETcc c => if holds c f then 11 else 5
  | I_RST _ => 11 | I_IN_A | I_OUT_A => 11
  | _ => 4
  end.

Ltac unfold_step H :=
  cbv beta iota zeta delta [step done rd16 imm8 imm8x imm16 push pop ea out fetch cb_mem] in H.
Ltac tick :=
  repeat match goal with w : option Z |- _ => destruct w end;
  cbn [app map sum fold_right tstates wait_of]; lia.
Lemma hi_byte x : 0 <= x < 65536 -> 0 <= x / 256 < 256.
Proof. intros. split; [apply Z.div_pos; lia|apply Z.div_lt_upper_bound; lia]. Qed.
Lemma dec8_zero n : 0 <= n < 256 -> ((n - 1) mod 256 =? 0) = (n =? 1).
Proof.
  intros. destruct (Z.eqb_spec n 1) as [->|N]; [reflexivity|]. apply Z.eqb_neq.
  destruct (Z.eq_dec n 0) as [->|]; [discriminate|]. rewrite Z.mod_small by lia. lia.
Qed.
Lemma dec16_zero n : 0 <= n < 65536 -> ((n - 1) mod 65536 =? 0) = (n =? 1).
Proof.
  intros. destruct (Z.eqb_spec n 1) as [->|N]; [reflexivity|]. apply Z.eqb_neq.
  destruct (Z.eq_dec n 0) as [->|]; [discriminate|]. rewrite Z.mod_small by lia. lia.
Qed.
Lemma step_ticks px i q (a : state) (bl : bevs) cl x : 0 <= aBC a < 65536 -> i <> I_CB -> i <> I_ED ->
  accepts (step ch px i q a) bl cl x -> 4 + tsum cl = t_ast px i (aF a) (aBC a / 256) + waits bl.
Proof.
  intros HBC N1 N2 H. unfold tsum, waits.
  destruct i; try congruence.
  all: try match goal with g : option Reg8 |- _ => destruct g end.
  all: try (destruct px; unfold_step H; accs; cbn [t_ast]; tick).
  all: destruct px; unfold_step H; accs; unfold w8, hi in *; cbn [aF aBC wPC] in *;
    try match goal with E : _ = _ :> bool |- _ => rewrite ?dec8_zero in E by now apply hi_byte end;
    cbn [t_ast]; repeat match goal with E : _ = _ :> bool |- _ => rewrite E; clear E end; tick.
Qed.

(** ED group: the second op-code fetch included. *)
Definition t_ast_ed (i : edinstr) : Z :=
  match i with
  | D_NOP | D_NEG | D_IM _ => 4
  | D_RETN | D_RETI => 10 | D_RLD | D_RRD => 14
  | D_LD_A_I | D_LD_A_R | D_LD_I_A | D_LD_R_A => 5
  | D_LD_rp_mem _ | D_LD_mem_rp _ => 16 | D_ADC16 _ | D_SBC16 _ => 11
  | D_IN _ | D_OUT _ => 8
  | D_LDx _ _ | D_CPx _ _ | D_INx _ _ | D_OUTx _ _ => 12
  end.
Definition again_ed (i : edinstr) (acc bc v : Z) : bool :=
  match i with
  | D_LDx _ rep => rep && negb (bc =? 1)
  | D_CPx _ rep => rep && (negb (bc =? 1) && negb (acc =? v))
  | D_INx _ rep | D_OUTx _ rep => rep && negb (bc / 256 =? 1)
  | _ => false
  end.
Definition rd1 (bl : bevs) : Z := match bl with VRd _ v :: _ => v | _ => 0 end.
Lemma ed_ticks i (a : state) (bl : bevs) cl x : 0 <= aBC a < 65536 ->
  accepts (ed_step ch i a) bl cl x ->
  4 + tsum cl = t_ast_ed i + (if again_ed i (aA a) (aBC a) (rd1 bl) then 5 else 0) + waits bl.
Proof.
  intros HBC H. unfold tsum, waits.
  destruct i; cbv beta iota zeta delta [ed_step done rd16 imm16 pop out] in H; accs;
    unfold w8, w16, hi, word_of, jump, again in *;
    cbn [aBC aA wHL wBC wDE wWZ wF wQ s_f] in *;
    try match goal with E : _ = _ :> bool |- _ =>
      rewrite ?(dec8_zero (aBC a / 256)), ?(dec16_zero (aBC a)), ?negb_orb in E by (try apply hi_byte; assumption) end;
    cbn [t_ast_ed again_ed rd1]; repeat match goal with E : _ = _ :> bool |- _ => rewrite E; clear E end; tick.
Qed.
Lemma cb_mem_ticks o ad g (a : state) (bl : bevs) cl x :
  accepts (cb_mem ch o ad g a) bl cl x ->
  tsum cl = (match o with C_Bit _ => 4 | _ => 7 end) + waits bl.
Proof.
  intros H. unfold tsum, waits. unfold cb_mem in H.
  destruct o; cbv beta iota zeta delta [cb done] in H; accs; tick.
Qed.

(** ** The tables *)
Definition all_bytes : list Z := map Z.of_nat (seq 0 256).
Lemma all_bytes_spec (P : Z -> Prop) : Forall P all_bytes -> forall c, isbyte c -> P c.
Proof.
  intros HF c Hc. rewrite Forall_forall in HF. apply HF. unfold all_bytes. apply in_map_iff.
  exists (Z.to_nat c). unfold isbyte in Hc. split; [lia|]. apply in_seq. lia.
Qed.
Ltac tables :=
  unfold all_bytes; cbn [seq map Z.of_nat Pos.of_succ_nat Pos.succ];
  repeat (apply Forall_cons; [let N1 := fresh in let N2 := fresh in intros N1 N2;
    first [exfalso; apply N1; reflexivity | exfalso; apply N2; reflexivity | clear N1 N2]|]); try apply Forall_nil.
Ltac table1 f E :=
  unfold t_taken, t_ast; try rewrite E; lazy -[Zf Cf Pf Sf];
  repeat match goal with |- context [?F f] => destruct (F f) end; reflexivity.
Lemma main_table f b : forall c, isbyte c ->
  decode c <> I_CB -> decode c <> I_ED -> at_ t_main c + t_taken c f b = t_ast None (decode c) f b.
Proof.
  intros c Hc. apply (all_bytes_spec (fun c => decode c <> I_CB -> decode c <> I_ED ->
    at_ t_main c + t_taken c f b = t_ast None (decode c) f b)); [clear c Hc|exact Hc].
  destruct (b =? 1) eqn:E; tables; table1 f E.
Qed.
Lemma index_table p f b : forall c, isbyte c ->
  decode c <> I_CB -> decode c <> I_ED -> at_ t_index c + t_taken c f b = t_ast (Some p) (decode c) f b.
Proof.
  intros c Hc. apply (all_bytes_spec (fun c => decode c <> I_CB -> decode c <> I_ED ->
    at_ t_index c + t_taken c f b = t_ast (Some p) (decode c) f b)); [clear c Hc|exact Hc].
  destruct (b =? 1) eqn:E; tables; table1 f E.
Qed.
Lemma all_bytesb (P : Z -> bool) : forallb P all_bytes = true -> forall c, isbyte c -> P c = true.
Proof. intros E. apply all_bytes_spec. now apply forallb_forall, Forall_forall in E || (apply Forall_forall; now apply forallb_forall). Qed.
Lemma decode_cb c : isbyte c -> decode c = I_CB -> c = 0xCB.
Proof.
  intros Hc E. assert (H := all_bytesb (fun c => match decode c with I_CB => c =? 0xCB | _ => true end) eq_refl c Hc).
  cbv beta in H. rewrite E in H. now apply Z.eqb_eq.
Qed.
Lemma decode_ed c : isbyte c -> decode c = I_ED -> c = 0xED.
Proof.
  intros Hc E. assert (H := all_bytesb (fun c => match decode c with I_ED => c =? 0xED | _ => true end) eq_refl c Hc).
  cbv beta in H. rewrite E in H. now apply Z.eqb_eq.
Qed.
Lemma ed_table c : isbyte c -> t_ed c = t_ast_ed (ed_decode c).
Proof. intros Hc. apply Z.eqb_eq. revert c Hc. apply all_bytesb. reflexivity. Qed.
Lemma repeat_table acc bc v c : isbyte c ->
  t_repeat c acc bc v = if again_ed (ed_decode c) acc bc v then 5 else 0.
Proof.
  intros Hc. apply Z.eqb_eq. revert c Hc. apply all_bytesb.
  unfold t_repeat, again_ed. destruct (bc =? 1), (bc / 256 =? 1), (acc =? v); vm_compute; reflexivity.
Qed.
Lemma cb_table c : isbyte c ->
  t_cb c = match snd (cb_decode c) with Some _ => 4
           | None => 4 + match fst (cb_decode c) with C_Bit _ => 4 | _ => 7 end end.
Proof. intros Hc. apply Z.eqb_eq. revert c Hc. apply all_bytesb. reflexivity. Qed.
Lemma icb_table c : isbyte c ->
  t_icb c = 5 + match fst (cb_decode c) with C_Bit _ => 4 | _ => 7 end.
Proof. intros Hc. apply Z.eqb_eq. revert c Hc. apply all_bytesb. reflexivity. Qed.

(** ** Whole instructions *)
Lemma ticks_app l1 l2 : tsum (l1 ++ l2) = tsum l1 + tsum l2.
Proof. unfold tsum. induction l1; cbn [app map sum fold_right] in *; unfold sum in *; lia. Qed.
Theorem exec_documented c (a : state) (bl : bevs) cl x :
  isbyte c -> 0 <= aBC a < 65536 -> Forall data_byte bl -> accepts (exec_op ch c a) bl cl x ->
  4 + tsum cl = documented (aPX a) c bl a + waits bl.
Proof.
  intros Hc HBC HD H. unfold exec_op in H.
  assert (HBC' : 0 <= aBC (wPX None (wQ (c_begin ch (aQ a)) a)) < 65536) by exact HBC.
  assert (EC : (decode c <> I_CB /\ decode c <> I_ED) \/ decode c = I_CB \/ decode c = I_ED)
    by (destruct (decode c); auto; left; split; discriminate).
  destruct EC as [[N1 N2]|[EC|EC]].
  - apply step_ticks in H; [|assumption..]. rewrite H. f_equal. cbn [aF aBC wPX wQ].
    assert (E1 : (c =? 0xCB) = false) by (apply Z.eqb_neq; intros ->; now elim N1).
    assert (E2 : (c =? 0xED) = false) by (apply Z.eqb_neq; intros ->; now elim N2).
    unfold documented. rewrite E1, E2. symmetry.
    destruct (aPX a); [apply index_table | apply main_table]; assumption.
  - rewrite EC in H. rewrite (decode_cb _ Hc EC). unfold documented. change (0xCB =? 0xCB) with true. cbv iota.
    destruct (aPX a); cbv beta iota zeta delta [step imm8 imm8x fetch] in H.
    + accs. apply cb_mem_ticks in H. inversion HD; subst. inversion H3; subst. cbn [data_byte] in H4.
      rewrite icb_table by assumption. unfold tsum, waits in *. cbn [map sum fold_right tstates wait_of] in *.
      unfold sum in *. lia.
    + accs. inversion HD; subst. cbn [data_byte] in H2. rewrite cb_table by assumption.
      destruct (cb_decode x0) as [o [g|]]; cbn [fst snd] in *.
      * unfold done in H. accs. reflexivity.
      * apply cb_mem_ticks in H. unfold tsum, waits in *. cbn [map sum fold_right tstates wait_of] in *.
        unfold sum in *. lia.
  - rewrite EC in H. rewrite (decode_ed _ Hc EC). unfold documented. change (0xED =? 0xCB) with false.
    change (0xED =? 0xED) with true. cbv iota.
    assert (G : accepts (fetch (wPX None (wQ (c_begin ch (aQ a)) a)) (fun c a => ed_step ch (ed_decode c) a)) bl cl x)
      by (destruct (aPX a); exact H).
    clear H. unfold fetch in G. accs. inversion HD; subst. cbn [data_byte] in H1.
    apply ed_ticks in G; [|exact HBC]. cbn [aA aBC wPC wPX wQ inc_R wR] in G.
    rewrite ed_table, repeat_table by assumption. unfold rd1 in G.
    unfold tsum, waits in *. cbn [map sum fold_right tstates wait_of] in *.
    destruct (aPX a); unfold sum in *; lia.
Qed.
(** Interrupts. *)
Theorem int_documented (a : state) (bl : bevs) cl x : 0 <= aBC a < 65536 -> Forall data_byte bl ->
  accepts (accept_int ch a) bl cl x ->
  tsum cl = int_time a bl + waits bl.
Proof.
  intros HBC HD H. unfold int_time. unfold accept_int in H. apply acc_ack in H. destruct H as (v & w & bl' & cl' & -> & -> & H).
  set (a1 := resume _) in H.
  assert (E1 : aIM a1 = aIM a) by (unfold a1, resume; cbn [aHALT inc_R wR wIFF1 wIFF2]; destruct (aHALT a); reflexivity).
  assert (E2 : aBC a1 = aBC a) by (unfold a1, resume; cbn [aHALT inc_R wR wIFF1 wIFF2]; destruct (aHALT a); reflexivity).
  assert (E3 : aPX a1 = aPX a) by (unfold a1, resume; cbn [aHALT inc_R wR wIFF1 wIFF2]; destruct (aHALT a); reflexivity).
  assert (E4 : aF a1 = aF a) by (unfold a1, resume; cbn [aHALT inc_R wR wIFF1 wIFF2]; destruct (aHALT a); reflexivity).
  assert (E5 : aA a1 = aA a) by (unfold a1, resume; cbn [aHALT inc_R wR wIFF1 wIFF2]; destruct (aHALT a); reflexivity).
  clearbody a1. rewrite E1 in H. cbv zeta in H. destruct (aIM a).
  - inversion HD; subst. cbn [data_byte] in H2. unfold exec in H.
    apply exec_documented in H; [|assumption|cbn; now rewrite E2|assumption].
    assert (ED : documented (aPX (wEI false (wHALT false a1))) v bl' (wEI false (wHALT false a1)) = documented (aPX a) v bl' a)
      by (unfold documented; cbn [aPX aF aBC aA wEI wHALT]; now rewrite E2, E3, E4, E5).
    rewrite ED in H. unfold tsum, waits in *. destruct w; cbn [app map sum fold_right tstates wait_of] in *; unfold sum in *; lia.
  - unfold push, done in H. accs. unfold tsum, waits. destruct w; cbn [app map sum fold_right tstates wait_of]; lia.
  - unfold push, rd16, done in H. accs. unfold tsum, waits. destruct w; cbn [app map sum fold_right tstates wait_of]; lia.
Qed.
Theorem nmi_documented (a : state) (bl : bevs) cl x : accepts (accept_nmi ch a) bl cl x -> tsum cl = 11.
Proof. intros H. unfold accept_nmi, push, done in H. accs. reflexivity. Qed.
Theorem next_documented (a : state) (bl : bevs) cl x : 0 <= aBC a < 65536 -> Forall data_byte bl ->
  accepts (next ch a) bl cl x -> tsum cl = step_time a bl + waits bl.
Proof.
  intros HBC HD H. unfold next in H. cbv zeta in H.
  assert (G : forall bl', Forall data_byte bl' ->
    accepts (if aHALT a then SIdleM1 (aPC a) (done (inc_R a)) else fetch a (exec ch)) bl' cl x ->
    tsum cl = (if aHALT a then 4 else match bl' with VOp _ _ c :: bl => documented (aPX a) c bl a | _ => 0 end) + waits bl'
    /\ match bl' with VIrq _ :: _ => False | _ => True end).
  { clear H. intros bl' HD' H. destruct (aHALT a).
    - unfold done in H. accs. split; [reflexivity|exact I].
    - unfold fetch in H. cbv zeta in H. apply acc_m1 in H. destruct H as (v & bl1 & cl1 & -> & -> & H). split; [|exact I].
      inversion HD' as [|? ? D1 D2]; subst. unfold exec in H. apply exec_documented in H; [|exact D1|exact HBC|exact D2].
      change (documented _ v bl1 _) with (documented (aPX a) v bl1 a) in H at 1.
      unfold tsum, waits in *. cbn [map sum fold_right tstates wait_of] in *. unfold sum in *. lia. }
  unfold step_time. cbv zeta. destruct (int_enabled a).
  - apply acc_irq in H. destruct H as (q & bl1 & -> & H). inversion HD as [|? ? _ D2]; subst.
    change (waits (VIrq q :: bl1)) with (waits bl1). destruct q.
    + now apply (int_documented a bl1 cl x).
    + now apply G.
  - apply G in H; [|exact HD]. destruct H as [E HN]. destruct bl as [|[] bl]; try exact E. contradiction.
Qed.
End Cycles.
