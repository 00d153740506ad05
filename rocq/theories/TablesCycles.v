(** Proofs for C49: the cycles of [SpecIsa] are those of templates per instruction, in the form of the crate's table. *)
From Coq Require Import ZArith Bool String List Lia.
From Verif Require Import Base Parse SpecAlu SpecState SpecIsa SpecCycles IsaCycles Tables SpecTables.
Import ListNotations.
Open Scope list_scope.
Open Scope Z_scope.
Ltac Zify.zify_post_hook ::= Z.div_mod_to_equations.

(** ** Templates of the cycles after the op-code fetches *)
Definition rp_bus (g : Reg16) : busval := match g with BC => BBc 0 | DE => BDe 0 | HL => BHl 0 | SP => BSp 0 end.
Definition t_cycles (px : bool) (i : instr) : list cycle :=
  let k := if px then 2 else 1 in
  let ea := if px then [CMr (BPc 2); CX 5 (BPc 2)] else [] in
  let mem := if px then BIndex else BHl 0 in
  let imm16 := [CMr (BPc k); CMr (BPc (k + 1))] in
  let push := [CMw (BSp (-1)); CMw (BSp (-2))] in
  let pop := [CMr (BSp 0); CMr (BSp 1)] in
  match i with
  | I_EX_SP => pop ++ [CX 1 (BSp 1); CMw (BSp 1); CMw (BSp 0); CX 2 (BSp 0)]
  | I_LD_rm _ | I_ALU_m _ => ea ++ [CMr mem]
  | I_LD_mr _ => ea ++ [CMw mem]
  | I_LD_rn _ | I_ALU_n _ => [CMr (BPc k)]
  | I_LD_mn => if px then [CMr (BPc 2); CMr (BPc 3); CX 2 (BPc 3); CMw BIndex] else [CMr (BPc 1); CMw (BHl 0)]
  | I_LD_A_rp g => [CMr (rp_bus g)]
  | I_LD_rp_A g => [CMw (rp_bus g)]
  | I_LD_A_nn => imm16 ++ [CMr (BNn 0)]
  | I_LD_nn_A => imm16 ++ [CMw (BNn 0)]
  | I_LD_rp_nn _ | I_JP | I_JPcc _ => imm16
  | I_LD_HL_mem => imm16 ++ [CMr (BNn 0); CMr (BNn 1)]
  | I_LD_mem_HL => imm16 ++ [CMw (BNn 0); CMw (BNn 1)]
  | I_LD_SP_HL | I_INC16 _ | I_DEC16 _ => [CX 2 (BIr k)]
  | I_PUSH _ | I_RST _ => CX 1 (BIr k) :: push
  | I_POP _ | I_RET => pop
  | I_INC8 None | I_DEC8 None => ea ++ [CMr mem; CX 1 mem; CMw mem]
  | I_ADD16 _ => [CX 7 (BIr k)]
  | I_JR => [CMr (BPc k); CX 5 (BPc k)]
  | I_JRcc _ => [CMq (BPc k); CSplit; CQr (BPc k); CX 5 (BPc k)]
  | I_DJNZ => [CX 1 (BIr k); CMq (BPc k); CSplit; CQr (BPc k); CX 5 (BPc k)]
  | I_CALL => imm16 ++ CX 1 (BPc (k + 1)) :: push
  | I_CALLcc _ => imm16 ++ CSplit :: CX 1 (BPc (k + 1)) :: push
  | I_RETcc _ => CX 1 (BIr k) :: CSplit :: pop
  | I_IN_A => [CMr (BPc k); CPr (BAn 0)]
  | I_OUT_A => [CMr (BPc k); CPw (BAn 0)]
  | _ => []
  end.
Definition t_imm (i : instr) : nat :=
  match i with
  | I_LD_rn _ | I_ALU_n _ | I_LD_mn | I_IN_A | I_OUT_A => 1
  | I_LD_A_nn | I_LD_nn_A | I_LD_rp_nn _ | I_JP | I_JPcc _ | I_LD_HL_mem | I_LD_mem_HL | I_CALL | I_CALLcc _ => 2
  | _ => 0
  end%nat.
Definition t_off (px : bool) (i : instr) : bool :=
  px && match i with I_LD_rm _ | I_ALU_m _ | I_LD_mr _ | I_LD_mn | I_INC8 None | I_DEC8 None => true | _ => false end.
Definition t_cond (i : instr) : option Condition :=
  match i with I_JPcc c | I_JRcc c | I_CALLcc c | I_RETcc c => Some c | _ => None end.
Definition t_pre (i : instr) : option prereq :=
  match i with I_JRcc _ | I_CALLcc _ | I_RETcc _ => Some PFlags | I_DJNZ => Some PB1 | _ => None end.
Definition ed_cycles (i : edinstr) : list cycle :=
  let imm16 := [CMr (BPc 2); CMr (BPc 3)] in
  let rep r b := if r : bool then [CSplit; CX 5 b] else [] in
  match i with
  | D_NOP | D_NEG | D_IM _ => []
  | D_RETN | D_RETI => [CMr (BSp 0); CMr (BSp 1)]
  | D_RLD | D_RRD => [CMr (BHl 0); CX 4 (BHl 0); CMw (BHl 0)]
  | D_LD_A_I | D_LD_A_R | D_LD_I_A | D_LD_R_A => [CX 1 (BIr 2)]
  | D_LD_rp_mem _ => imm16 ++ [CMr (BNn 0); CMr (BNn 1)]
  | D_LD_mem_rp _ => imm16 ++ [CMw (BNn 0); CMw (BNn 1)]
  | D_ADC16 _ | D_SBC16 _ => [CX 7 (BIr 2)]
  | D_IN _ => [CPr (BBc 0)]
  | D_OUT _ => [CPw (BBc 0)]
  | D_LDx _ r => [CMr (BHl 0); CMw (BDe 0); CX 2 (BDe 0)] ++ rep r (BDe 0)
  | D_CPx _ r => [CMr (BHl 0); CX 5 (BHl 0)] ++ rep r (BHl 0)
  | D_INx _ r => [CX 1 (BIr 2); CPr (BBc 0); CMw (BHl 0)] ++ rep r (BHl 0)
  | D_OUTx _ r => [CX 1 (BIr 2); CMr (BHl 0); CPw (BBc (-256))] ++ rep r (BBc (-256))
  end.
Definition ed_imm (i : edinstr) : nat := match i with D_LD_rp_mem _ | D_LD_mem_rp _ => 2 | _ => 0 end%nat.
Definition ed_pre (i : edinstr) : option prereq :=
  match i with
  | D_LDx _ true => Some PBC1 | D_CPx _ true => Some PBC1OrAHl | D_INx _ true | D_OUTx _ true => Some PB1 | _ => None
  end.
Definition cb_cycles (px : bool) (o : cbop) (g : option Reg8) : list cycle :=
  let wr b := match o with C_Bit _ => [] | _ => [CMw b] end in
  if px then [CMr (BPc 2); CMr (BPc 3); CX 2 (BPc 3); CMr BIndex; CX 1 BIndex] ++ wr BIndex
  else match g with Some _ => [] | None => [CMr (BHl 0); CX 1 (BHl 0)] ++ wr (BHl 0) end.
(** Template of op-code [code]. *)
Definition template (px : bool) (code : list Z) : option icycles :=
  let pfx := if px then [CM1 0] else [] in
  match code with
  | [c] => if (c =? 0xCB) || (c =? 0xED) then None
           else let i := decode c in Some (mkIC (pfx ++ CM1 (if px then 1 else 0) :: t_cycles px i) (t_imm i) (t_off px i) (t_cond i) (t_pre i))
  | [p; c] =>
      if p =? 0xCB then
        Some (mkIC (CM1 0 :: CM1 1 :: cb_cycles px (fst (cb_decode c)) (snd (cb_decode c))) 0 px None None)
      else if negb px && (p =? 0xED) then
        let i := ed_decode c in Some (mkIC (CM1 0 :: CM1 1 :: ed_cycles i) (ed_imm i) false None (ed_pre i))
      else None
  | _ => None
  end.

(** ** Runs *)
Section Runs.
Context {T WB RB : Type}.
Variable ch : chip T.
Notation state := (arch T).
Notation bevs := (list (bev WB RB)).
Definition ranges (a : state) : Prop :=
  0 <= aPC a < 65536 /\ 0 <= aBC a < 65536 /\ 0 <= aDE a < 65536 /\ 0 <= aHL a < 65536 /\ 0 <= aSP a < 65536 /\
  0 <= aIX a < 65536 /\ 0 <= aIY a < 65536 /\ 0 <= aA a < 256 /\ 0 <= aI a < 256 /\ 0 <= aR a < 256.
(** [a] is [a0] after [k] op-code fetches. *)
Definition fetched (k : Z) (a0 a : state) : Prop :=
  aPC a = (aPC a0 + k) mod 65536 /\ IR a = bus_value None a0 (fun _ => 0) 0 (BIr k) /\
  aBC a = aBC a0 /\ aDE a = aDE a0 /\ aHL a = aHL a0 /\ aSP a = aSP a0 /\ aIX a = aIX a0 /\ aIY a = aIY a0 /\
  aA a = aA a0 /\ aF a = aF a0.
Definition agree (px : option Prefix) (a0 : state) (m : Z -> Z) (n : Z) (cs : list cycle) (bl : bevs) (cl : list tev) : Prop :=
  ticks cl = flat_map (tick_of px a0 m n) cs /\ accesses bl = flat_map (access_of px a0 m n) cs.

Lemma cons_eq {X} (x y : X) l l' : x = y -> l = l' -> x :: l = y :: l'.
Proof. congruence. Qed.
Lemma satisfied_holds c f : satisfied c f = holds c f.
Proof. destruct c; reflexivity. Qed.
Ltac evs :=
  repeat match goal with
  | |- @nil _ = nil => reflexivity
  | |- _ :: _ = _ :: _ => apply cons_eq
  | |- TM1 _ = TM1 _ => f_equal | |- TMreq _ = TMreq _ => f_equal | |- TX _ _ = TX _ _ => f_equal
  | |- TIo _ = TIo _ => f_equal
  | |- FetchAt _ = FetchAt _ => f_equal | |- ReadAt _ = ReadAt _ => f_equal | |- WriteAt _ = WriteAt _ => f_equal
  | |- InAt _ = InAt _ => f_equal | |- OutAt _ = OutAt _ => f_equal
  end.
Ltac sup :=
  unfold supplied in *;
  repeat match goal with
  | H : Forall _ (_ :: _) |- _ =>
      let H1 := fresh "Hv" in let H2 := fresh "Hs" in pose proof (Forall_inv H) as H1; pose proof (Forall_inv_tail H) as H2;
      clear H; cbv beta iota in H1
  end.
Ltac simp := cbn [aA aF aBC aDE aHL aAF' aBC' aDE' aHL' aIX aIY aSP aPC aWZ aI aR aIM aIFF1 aIFF2 aHALT aEI aPX aQ
    wA wF wBC wDE wHL wAF' wBC' wDE' wHL' wIX wIY wSP wPC wWZ wI wR wIM wIFF1 wIFF2 wHALT wEI wPX wQ
    g_hl s_hl g_r s_r g_rp s_rp g_rp2 s_rp2 s_f jump again] in *.
Ltac bools :=
  repeat match goal with E : ?b = _ :> bool |- context [?b] => rewrite E; clear E end.
Ltac fin :=
  unfold performed, short;
  cbn [t_cycles t_imm t_off t_cond t_pre ed_cycles ed_imm ed_pre ic_pre ic_cond ic_cycles app andb orb aA aF aBC aHL];
  rewrite ?satisfied_holds; bools; cbn [negb andb orb]; cbv iota; cbn [head];
  repeat match goal with w : option Z |- _ => destruct w end;
  unfold ticks, accesses;
  cbn [app filter flat_map tick_of access_of bus_value rp_bus aA aF aBC aDE aHL aIX aIY aSP aPC aI aR];
  unfold index_reg, code_at, w; cbn [aA aF aBC aDE aHL aIX aIY aSP aPC aI aR];
  split; evs.
Lemma mod_add a b : (a mod 65536 + b) mod 65536 = (a + b) mod 65536.
Proof. apply Zplus_mod_idemp_l. Qed.
Lemma mod_sub a b : (a mod 65536 - b) mod 65536 = (a - b) mod 65536.
Proof. apply Zminus_mod_idemp_l. Qed.
Ltac fin2 HIR :=
  unfold IR, disp, w16, word_of, lo, hi in *;
  cbn [aI aR] in *; rewrite ?HIR; try reflexivity;
  change (Z.of_nat 2) with 2; change (Z.of_nat 1) with 1; change (Z.of_nat 0) with 0;
  cbn [Z.add Z.sub Z.opp Z.pos_sub Pos.add Pos.succ Z.succ_double Z.pred_double Z.double Pos.pred_double];
  clear HIR; rewrite ?mod_add, ?mod_sub in *; try reflexivity;
  repeat match goal with
  | Hv : ?x = ?m ?e |- context [?m ?e'] => progress replace (m e') with x by (rewrite Hv; f_equal; first [reflexivity | f_equal; ring])
  end;
  repeat match goal with Hv : ?x = ?m ?e |- _ => clear Hv end;
  try (f_equal; [|reflexivity]);
  unfold data_byte, isbyte in *; try reflexivity; try lia.
Ltac unfold_step H :=
  cbv beta iota zeta delta [step done rd16 imm8 imm8x imm16 push pop ea out fetch cb_mem] in H.
Definition is_some {X} (o : option X) : bool := match o with Some _ => true | None => false end.
Definition start (px : option Prefix) : Z := match px with None => 1 | Some _ => 2 end.
Lemma step_agree px i q a0 a m n (bl : bevs) cl x :
  ranges a0 -> fetched (start px) a0 a -> supplied m bl -> Forall data_byte bl -> i <> I_CB -> i <> I_ED ->
  n = start px + (if t_off (is_some px) i then 1 else 0) + Z.of_nat (t_imm i) ->
  accepts (step ch px i q a) bl cl x ->
  agree px a0 m n (performed a0 m (mkIC (t_cycles (is_some px) i) (t_imm i) (t_off (is_some px) i) (t_cond i) (t_pre i))) bl cl.
Proof.
  intros HR HF HS HD N1 N2 -> H. unfold agree.
  destruct a0 as [a0A a0F a0BC a0DE a0HL a0AF' a0BC' a0DE' a0HL' a0IX a0IY a0SP a0PC a0WZ a0I a0R a0IM a0IFF1 a0IFF2 a0HALT a0EI a0PX a0Q],
    a as [vA vF vBC vDE vHL vAF' vBC' vDE' vHL' vIX vIY vSP vPC vWZ vI vR vIM vIFF1 vIFF2 vHALT vEI vPX vQ].
  unfold ranges, fetched, IR in *; cbn [aA aF aBC aDE aHL aIX aIY aSP aPC aI aR bus_value] in *.
  destruct HF as (-> & HIR & -> & -> & -> & -> & -> & -> & -> & ->).
  destruct HR as (RPC & RBC & RDE & RHL & RSP & RIX & RIY & RA & RI & RR).
  destruct i; try congruence.
  all: try match goal with g : option Reg8 |- _ => destruct g end.
  all: try match type of H with accepts (step _ _ (I_LD_A_rp ?g) _ _) _ _ _ => destruct g
                              | accepts (step _ _ (I_LD_rp_A ?g) _ _) _ _ _ => destruct g end.
  all: destruct px as [ip|]; cbn [start is_some] in *; unfold_step H; accs; sup; simp.
  all: unfold w8, hi in *.
  all: try match goal with E : (_ =? 0) = _ |- _ => rewrite dec8_zero in E by now apply hi_byte end.
  all: fin.
  all: try reflexivity.
  all: fin2 HIR.
Qed.
Lemma ed_agree i a0 a m n (bl : bevs) cl x :
  ranges a0 -> fetched 2 a0 a -> supplied m bl -> Forall data_byte bl -> n = 2 + Z.of_nat (ed_imm i) ->
  accepts (ed_step ch i a) bl cl x ->
  agree None a0 m n (performed a0 m (mkIC (ed_cycles i) (ed_imm i) false None (ed_pre i))) bl cl.
Proof.
  intros HR HF HS HD -> H. unfold agree.
  destruct a0 as [a0A a0F a0BC a0DE a0HL a0AF' a0BC' a0DE' a0HL' a0IX a0IY a0SP a0PC a0WZ a0I a0R a0IM a0IFF1 a0IFF2 a0HALT a0EI a0PX a0Q],
    a as [vA vF vBC vDE vHL vAF' vBC' vDE' vHL' vIX vIY vSP vPC vWZ vI vR vIM vIFF1 vIFF2 vHALT vEI vPX vQ].
  unfold ranges, fetched, IR in *; cbn [aA aF aBC aDE aHL aIX aIY aSP aPC aI aR bus_value] in *.
  destruct HF as (-> & HIR & -> & -> & -> & -> & -> & -> & -> & ->).
  destruct HR as (RPC & RBC & RDE & RHL & RSP & RIX & RIY & RA & RI & RR).
  destruct i; try match goal with r : bool |- _ => destruct rep end.
  all: cbv beta iota zeta delta [ed_step done rd16 imm16 pop out andb] in H; accs; sup; simp.
  all: unfold w8, w16, hi in *.
  all: try match goal with E : _ = _ :> bool |- _ =>
      rewrite ?(dec8_zero (a0BC / 256)), ?(dec16_zero a0BC) in E by (try apply hi_byte; assumption) end.
  all: try match goal with E : negb _ = true |- _ => apply negb_true_iff in E | E : negb _ = false |- _ => apply negb_false_iff in E end.
  all: try match goal with Hv : ?x = ?mm ?e, E : (_ || (_ =? ?x)) = _ |- _ => rewrite Hv in E end.
  all: fin.
  all: try reflexivity.
  all: fin2 HIR.
Qed.
Lemma cb_agree px q a0 a m n c (bl : bevs) cl x :
  ranges a0 -> fetched (start px) a0 a -> supplied m bl -> Forall data_byte bl ->
  accepts (step ch px I_CB q a) bl cl x ->
  c = m ((aPC a0 + match px with None => 1 | Some _ => 3 end) mod 65536) ->
  agree px a0 m n (match px with None => [CM1 1] | Some _ => [] end ++ cb_cycles (is_some px) (fst (cb_decode c)) (snd (cb_decode c))) bl cl.
Proof.
  intros HR HF HS HD H. unfold agree.
  destruct a0 as [a0A a0F a0BC a0DE a0HL a0AF' a0BC' a0DE' a0HL' a0IX a0IY a0SP a0PC a0WZ a0I a0R a0IM a0IFF1 a0IFF2 a0HALT a0EI a0PX a0Q],
    a as [vA vF vBC vDE vHL vAF' vBC' vDE' vHL' vIX vIY vSP vPC vWZ vI vR vIM vIFF1 vIFF2 vHALT vEI vPX vQ].
  unfold ranges, fetched, IR in *; cbn [aA aF aBC aDE aHL aIX aIY aSP aPC aI aR bus_value] in *.
  destruct HF as (-> & HIR & -> & -> & -> & -> & -> & -> & -> & ->).
  destruct HR as (RPC & RBC & RDE & RHL & RSP & RIX & RIY & RA & RI & RR).
  destruct px as [ip|]; cbn [start is_some] in *; unfold cb_cycles; unfold_step H; accs; sup; intros Hc.
  - assert (E : x3 = c) by (match goal with Hv : x3 = _ |- _ => rewrite Hc, Hv end; simp; apply (f_equal m); unfold w16; rewrite ?mod_add; f_equal; ring). rewrite E in H. clear E.
    destruct (cb_decode c) as [o g]; cbn [fst snd] in *. destruct o; cbv beta iota zeta delta [cb done] in H; accs; sup; simp; fin;
      try reflexivity; fin2 HIR.
  - assert (E : x0 = c) by (match goal with Hv : x0 = _ |- _ => rewrite Hc, Hv end; unfold inc_R; simp; apply (f_equal m); unfold w16; rewrite ?mod_add; f_equal; ring). rewrite E in H. clear E. unfold inc_R in *.
    destruct (cb_decode c) as [o [g|]]; cbn [fst snd] in *.
    + unfold done in H; accs; simp; fin; try reflexivity; fin2 HIR.
    + destruct o; cbv beta iota zeta delta [cb done] in H; accs; sup; simp; fin; try reflexivity; fin2 HIR.
Qed.
Lemma fetched_next k a0 a : fetched k a0 a -> fetched (k + 1) a0 (wPC (w16 (aPC a + 1)) (inc_R a)).
Proof.
  unfold fetched, IR, inc_R, w16, word_of. cbn [aA aF aBC aDE aHL aIX aIY aSP aPC aI aR wPC wR bus_value].
  intros (EP & EI & H). rewrite EP, mod_add. split; [f_equal; ring|]. split; [|exact H]. clear H EP.
  remember (256 * aI a0 + aR a0) as ir. clear Heqir. lia.
Qed.
Lemma fetched_0 a : ranges a -> fetched 0 a a.
Proof.
  intros (RPC & _). unfold fetched, IR, word_of. cbn [bus_value]. rewrite !Z.add_0_r, Z.mod_small by assumption.
  repeat split. lia.
Qed.
Lemma performed_cons a m c cs k o d p : c <> CSplit ->
  performed (T := T) a m (mkIC (c :: cs) k o d p) = c :: performed a m (mkIC cs k o d p).
Proof. intros N. unfold performed, short. cbn [ic_pre ic_cond ic_cycles]. destruct p as [[]|]; destruct d;
  try reflexivity; destruct (_ : bool); try reflexivity; destruct c; try reflexivity; congruence.
Qed.
Lemma agree_cons px a0 m n cs (bl : bevs) cl k a i v : w (aPC a0 + k) = a ->
  agree px a0 m n cs bl cl -> agree px a0 m n (CM1 k :: cs) (VOp a i v :: bl) (TM1 a :: cl).
Proof.
  intros <- [E1 E2]. unfold agree, ticks, accesses in *. cbn [filter flat_map tick_of access_of app]. now rewrite E1, E2.
Qed.
Lemma fetched_exec k a0 a c : fetched k a0 a -> fetched k a0 (wPX None (wQ c (wEI false (wHALT false a)))).
Proof. exact (fun H => H). Qed.
Lemma step_ed q (a : state) : step (WB := WB) (RB := RB) ch None I_ED q a = fetch a (fun c a => ed_step ch (ed_decode c) a).
Proof. reflexivity. Qed.
Lemma decode_CB : decode 0xCB = I_CB.
Proof. reflexivity. Qed.
Lemma decode_ED : decode 0xED = I_ED.
Proof. reflexivity. Qed.
Lemma fetch_inv (a : state) k (bl : bevs) cl x : accepts (fetch a k) bl cl x -> exists v bl' cl',
  bl = VOp (aPC a) (IR (inc_R a)) v :: bl' /\ cl = TM1 (aPC a) :: cl' /\ accepts (k v (wPC (w16 (aPC a + 1)) (inc_R a))) bl' cl' x.
Proof. intros H. unfold fetch in H. cbv zeta in H. apply acc_m1 in H. destruct H as (v & bl' & cl' & -> & -> & H). now exists v, bl', cl'. Qed.
Lemma exec_step c (a : state) : exec (WB := WB) (RB := RB) ch c a = step ch (aPX a) (decode c) (aQ a) (wPX None (wQ (c_begin ch (aQ a)) (wEI false (wHALT false a)))).
Proof. reflexivity. Qed.
Lemma fetched_pfx k a0 a p : fetched k a0 a -> fetched k a0 (wPX (Some p) a).
Proof. exact (fun H => H). Qed.
Lemma decode_pfx p : decode (prefix_byte p) = I_PFX p.
Proof. destruct p; reflexivity. Qed.
Lemma step_pfx px p q (a : state) : step (WB := WB) (RB := RB) ch px (I_PFX p) q a = SRet (wPX (Some p) a, ONext).
Proof. reflexivity. Qed.
Lemma next_px p (a : state) : aPX a = Some p -> aHALT a = false -> next (WB := WB) (RB := RB) ch a = fetch a (exec ch).
Proof. intros E1 E2. unfold next, int_enabled, nmi_enabled. now rewrite E1, E2, !andb_false_r. Qed.
(** The instruction after its prefix, if any. *)
Definition lead (px : option Prefix) : list cycle := match px with Some _ => [CM1 0] | None => [] end.
Lemma body_agree px a0 a m code ic (bl : bevs) cl x :
  ranges a0 -> fetched (start px - 1) a0 a -> aPX a = px -> supplied m bl -> Forall data_byte bl ->
  template (is_some px) code = Some ic -> stored m (aPC a0) (opcode_bytes px code ic (m (w (aPC a0 + 2)))) ->
  accepts (fetch a (exec ch)) bl cl x ->
  exists cs, performed a0 m ic = lead px ++ cs /\ agree px a0 m (size px code ic) cs bl cl.
Proof.
  intros HR HF HP HS HD HT HM H. apply fetch_inv in H. destruct H as (v & bl1 & cl1 & -> & -> & H).
  pose proof (fetched_next _ _ _ HF) as HF1. replace (start px - 1 + 1) with (start px) in HF1 by ring.
  remember (wPC (w16 (aPC a + 1)) (inc_R a)) as a2 eqn:E2. assert (HP2 : aPX a2 = px) by (now rewrite E2). clear E2.
  rewrite exec_step, HP2 in H.
  apply fetched_exec with (c := c_begin ch (aQ a2)) in HF1.
  remember (wPX None (wQ (c_begin ch (aQ a2)) (wEI false (wHALT false a2)))) as a1 eqn:Ea1. remember (aQ a2) as q0 eqn:Eq0. clear Ea1 Eq0 HP2 a2.
  pose proof (Forall_inv HS) as HV. cbv beta iota in HV. apply Forall_inv_tail in HS.
  pose proof (Forall_inv HD) as Hv. cbn [data_byte] in Hv. apply Forall_inv_tail in HD.
  assert (EP : aPC a = w (aPC a0 + (start px - 1))) by exact (proj1 HF).
  rewrite EP in *.
  destruct code as [|c0 [|c1 [|]]]; try discriminate HT; cbn [template] in HT.
  - destruct (_ || _) eqn:E0 in HT; [discriminate|]. apply orb_false_iff in E0. destruct E0 as [N1 N2].
    injection HT as <-.
    assert (Ec : v = c0). { rewrite HV. unfold opcode_bytes, insert in HM. cbn [ic_off] in HM.
      destruct px as [ip|]; cbn [start is_some] in *; destruct (t_off _ _); cbn [firstn skipn app stored] in HM; unfold w;
      rewrite ?Z.sub_diag, ?Z.add_0_r; try rewrite (Z.mod_small (aPC a0)) by apply HR; change (2 - 1) with 1; tauto. }
    subst c0.
    exists (CM1 (start px - 1) :: performed a0 m (mkIC (t_cycles (is_some px) (decode v)) (t_imm (decode v)) (t_off (is_some px) (decode v))
              (t_cond (decode v)) (t_pre (decode v)))). split.
    { destruct px as [ip|]; cbn [is_some lead app start]; rewrite !performed_cons by discriminate; reflexivity. }
    apply agree_cons; [reflexivity|].
    eapply step_agree; try eassumption.
    + intros E. apply decode_cb in E; [|assumption]. rewrite E in N1. discriminate N1.
    + intros E. apply decode_ed in E; [|assumption]. rewrite E in N2. discriminate N2.
    + unfold size, opcode_bytes, insert. cbn [ic_off ic_imm]. destruct px as [ip|]; cbn [start is_some] in *;
        destruct (t_off _ _); cbn [firstn skipn app List.length]; lia.
  - destruct (c0 =? 0xCB) eqn:E0.
    + apply Z.eqb_eq in E0. subst c0. injection HT as <-.
      assert (EM : m (w (aPC a0 + (start px - 1))) = 0xCB /\ m ((aPC a0 + match px with None => 1 | Some _ => 3 end) mod 65536) = c1).
      { unfold opcode_bytes, insert in HM. cbn [ic_off] in HM. unfold w.
        destruct px as [ip|]; cbn [start is_some firstn skipn app stored] in *; rewrite ?mod_add in HM;
          rewrite ?Z.sub_diag, ?Z.add_0_r; try rewrite (Z.mod_small (aPC a0)) by apply HR; rewrite <- ?Z.add_assoc in HM;
          change (2 - 1) with 1; cbn [Z.add Pos.add Pos.succ] in HM; tauto. }
      destruct EM as [EM1 EM2]. rewrite EM1 in HV. subst v. rewrite decode_CB in H.
      exists (CM1 (start px - 1) :: match px with None => [CM1 1] | Some _ => [] end ++
                cb_cycles (is_some px) (fst (cb_decode c1)) (snd (cb_decode c1))). split.
      { destruct px as [ip|]; cbn [start is_some lead app]; reflexivity. }
      apply agree_cons; [reflexivity|]. eapply cb_agree; try eassumption. congruence.
    + destruct (_ && _) eqn:E1 in HT; [|discriminate]. apply andb_true_iff in E1. destruct E1 as [E1 E2].
      apply Z.eqb_eq in E2. subst c0. injection HT as <-. destruct px; [discriminate E1|]. cbn [start is_some lead app] in *.
      unfold opcode_bytes in HM. cbn [ic_off stored] in HM. rewrite Z.sub_diag, Z.add_0_r in *.
      unfold w in HV. rewrite Z.mod_small in HV by apply HR. destruct HM as (M1 & M2 & _). rewrite M1 in HV. subst v.
      rewrite decode_ED, step_ed in H. apply fetch_inv in H.
      destruct H as (v & bl2 & cl2 & -> & -> & H).
      pose proof (Forall_inv HS) as HV. cbv beta iota in HV. apply Forall_inv_tail in HS. apply Forall_inv_tail in HD.
      pose proof (fetched_next _ _ _ HF1) as HF2. cbn [Z.add Pos.add Pos.succ] in HF2.
      remember (wPC (w16 (aPC a1 + 1)) (inc_R a1)) as a2 eqn:E2. clear E2.
      assert (EP2 : aPC a1 = w (aPC a0 + 1)) by exact (proj1 HF1).
      rewrite EP2 in *. rewrite HV in H. unfold w in H at 1. rewrite M2 in H.
      eexists. split; [rewrite !performed_cons by discriminate; reflexivity|].
      apply agree_cons; [unfold w; rewrite Z.add_0_r; reflexivity|]. apply agree_cons; [reflexivity|].
      eapply ed_agree; try eassumption; [unfold size, opcode_bytes; cbn [ic_off ic_imm List.length]; lia].
Qed.
Lemma next_fetch a0 (bl : bevs) cl x : aHALT a0 = false -> not_taken bl -> accepts (next ch a0) bl cl x ->
  exists pre bl', bl = pre ++ bl' /\ (pre = [] \/ pre = [VIrq false] /\ int_enabled a0 = true) /\ accepts (fetch a0 (exec ch)) bl' cl x.
Proof.
  intros EH HN H. unfold next in H. cbv zeta in H. rewrite EH in H. destruct (int_enabled a0).
  - cbn [accepts] in H. destruct bl as [|[] bl]; try contradiction. destruct b; [contradiction|].
    exists [VIrq false], bl. auto.
  - exists [], bl. auto.
Qed.
Lemma agree_irq px a0 m n cs pre (bl : bevs) cl : pre = [] \/ pre = [VIrq false] /\ int_enabled a0 = true ->
  agree px a0 m n cs bl cl -> agree px a0 m n cs (pre ++ bl) cl.
Proof. intros [->|[-> _]] H; exact H. Qed.
Lemma unprefixed_agree a0 m code ic (bl : bevs) cl x :
  ranges a0 -> aPX a0 = None -> aHALT a0 = false -> not_taken bl -> supplied m bl -> Forall data_byte bl ->
  template false code = Some ic -> stored m (aPC a0) (opcode_bytes None code ic (m (w (aPC a0 + 2)))) ->
  accepts (next ch a0) bl cl x ->
  agree None a0 m (size None code ic) (performed a0 m ic) bl cl.
Proof.
  intros HR HP EH HN HS HD HT HM H. apply next_fetch in H; [|assumption..]. destruct H as (pre & bl' & -> & Hpre & H).
  apply Forall_app in HS. apply Forall_app in HD. destruct HS as [_ HS], HD as [_ HD].
  apply agree_irq; [assumption|].
  destruct (body_agree None a0 a0 m code ic bl' cl x) as (cs & -> & G); try assumption. now apply fetched_0.
Qed.
Lemma prefixed_agree p a0 m code ic (bl1 bl2 : bevs) cl1 cl2 x1 x2 :
  ranges a0 -> aPX a0 = None -> aHALT a0 = false -> not_taken bl1 -> supplied m (bl1 ++ bl2) -> Forall data_byte (bl1 ++ bl2) ->
  template true code = Some ic -> stored m (aPC a0) (opcode_bytes (Some p) code ic (m (w (aPC a0 + 2)))) ->
  accepts (next ch a0) bl1 cl1 x1 -> accepts (next ch (fst x1)) bl2 cl2 x2 ->
  agree (Some p) a0 m (size (Some p) code ic) (performed a0 m ic) (bl1 ++ bl2) (cl1 ++ cl2).
Proof.
  intros HR HP EH HN HS HD HT HM H1 H2. apply next_fetch in H1; [|assumption..]. destruct H1 as (pre & bl' & -> & Hpre & H1).
  rewrite <- app_assoc in *. apply Forall_app in HS. apply Forall_app in HD. destruct HS as [_ HS], HD as [_ HD].
  apply agree_irq; [assumption|]. clear Hpre HN.
  apply fetch_inv in H1. destruct H1 as (v & bl1 & cl1' & -> & -> & H1). cbn [app] in *.
  pose proof (Forall_inv HS) as HV. cbv beta iota in HV. apply Forall_inv_tail in HS. apply Forall_inv_tail in HD.
  assert (E0 : m (aPC a0) = prefix_byte p).
  { destruct code as [|c0 code]; [discriminate|]. unfold opcode_bytes, insert in HM. destruct (ic_off ic);
      cbn [firstn app stored] in HM; tauto. }
  rewrite E0 in HV. subst v.
  pose proof (fetched_next _ _ _ (fetched_0 _ HR)) as HF1. cbn [Z.add] in HF1.
  remember (wPC (w16 (aPC a0 + 1)) (inc_R a0)) as a2 eqn:E2. assert (HP2 : aPX a2 = None) by (now rewrite E2). clear E2.
  rewrite exec_step, HP2, decode_pfx, step_pfx in H1. apply acc_ret in H1. destruct H1 as (-> & -> & <-). cbn [fst app] in *.
  apply fetched_exec with (c := c_begin ch (aQ a2)) in HF1. apply fetched_pfx with (p := p) in HF1.
  remember (wPX (Some p) _) as a3 eqn:E3.
  assert (HP3 : aPX a3 = Some p) by (now rewrite E3). assert (HH3 : aHALT a3 = false) by (now rewrite E3). clear E3.
  rewrite (next_px p) in H2 by assumption.
  destruct (body_agree (Some p) a0 a3 m code ic bl2 cl2 x2 HR HF1 HP3 HS HD HT HM H2) as (cs & -> & G).
  cbn [lead app]. apply agree_cons; [|exact G]. unfold w. rewrite Z.add_0_r. apply Z.mod_small, HR.
Qed.
End Runs.
