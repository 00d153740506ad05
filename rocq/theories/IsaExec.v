(** Whole instructions, interrupt acceptance and [execute_next] run as the specification [SpecIsa] says. *)
From Coq Require Import ZArith Bool List Lia ZifyBool.
From Verif Require Import Base Flags Ops Parse Cpu Flavours Prog Trace Internal Instr Exec Decode Sym Range Safe SafeEntry
  AluProofs SpecAlu SpecState SpecIsa Accessors IsaLink IsaArith IsaTac IsaNone IsaPfx Dbg.
Import ListNotations.
Open Scope Z_scope.
Ltac Zify.zify_post_hook ::= Z.div_mod_to_equations.

Lemma step_unprefixed {T WB RB} (ch : chip T) px i q a : uses_hl i = false ->
  step (WB:=WB) (RB:=RB) ch (Some px) i q a = step ch None i q a.
Proof.
  destruct i; cbn [uses_hl]; intros HU; try discriminate HU; try reflexivity.
  all: repeat match goal with
       | g : Reg8 |- _ => destruct g; try discriminate HU
       | g : option Reg8 |- _ => destruct g; try discriminate HU
       | g : Reg16 |- _ => destruct g; try discriminate HU
       | g : StkReg16 |- _ => destruct g; try discriminate HU
       end.
  all: reflexivity.
Qed.
Lemma ignored_unprefixed c : byte c -> decode_pfx c = P_IGNORE -> uses_hl (decode c) = false.
Proof.
  intros Hc. assert (E : (match decode_pfx c with P_IGNORE => negb (uses_hl (decode c)) | _ => true end) = true).
  { revert c Hc. match goal with |- forall x, byte x -> (@?P x) = true => apply (all1_spec P) end. vm_compute. reflexivity. }
  intros D. rewrite D in E. now apply negb_true_iff in E.
Qed.
Lemma buses_nodebug {TS WB RB} (l : list (ev TS WB RB)) : buses (nodebug l) = buses l.
Proof. induction l as [|e l IH]; [reflexivity|]. unfold buses, clocks, nodebug in *. destruct e; cbn; rewrite IH; reflexivity. Qed.
Lemma clocks_nodebug {TS WB RB} (l : list (ev TS WB RB)) : clocks (nodebug l) = clocks l.
Proof. induction l as [|e l IH]; [reflexivity|]. unfold buses, clocks, nodebug in *. destruct e; cbn; rewrite IH; reflexivity. Qed.
Lemma buses_app {TS WB RB} (l m : list (ev TS WB RB)) : buses (l ++ m) = buses l ++ buses m.
Proof. apply flat_map_app. Qed.
Lemma clocks_app {TS WB RB} (l m : list (ev TS WB RB)) : clocks (l ++ m) = clocks l ++ clocks m.
Proof. apply flat_map_app. Qed.

Section Isa.
Context {Q T TS WB RB : Type}.
Variable FL : Flavour Q.
Variable ch : chip T.
Variable absq : Q -> T.
Hypothesis CH : chip_ok FL ch absq.
Notation wpm := (wpm (TS:=TS) (WB:=WB) (RB:=RB)).
Notation wpl := (wpl (TS:=TS) (WB:=WB) (RB:=RB)).

Lemma exec_op_begun c (s : @st Q) :
  exec_op (WB:=WB) (RB:=RB) ch c (abs2 absq s) =
  step ch (spx s) (decode c) (absq (flavour (sc s))) (abs2 absq (mkSt (begun FL (sc s)) (sfl s) (spc s) None)).
Proof.
  unfold exec_op. cbn [abs2 aPX aQ]. f_equal. unfold abs2, begun. cbn [sc sfl spc spx set_flavour flavour].
  rewrite (ok_begin _ _ _ CH). reflexivity.
Qed.
Lemma exec_code_isa0 c (s : @st Q) : byte c -> wfst s ->
  wpm (exec_code FL false c) s (good absq (exec_op ch c (abs2 absq s))).
Proof.
  intros Hc (Hk & Hff & Hp). rewrite exec_op_begun. apply wpm_exec.
  - intros Hx. assert (E : step (WB:=WB) (RB:=RB) ch (spx s) (decode c) (absq (flavour (sc s)))
        (abs2 absq (mkSt (begun FL (sc s)) (sfl s) (spc s) None)) =
      step ch None (decode c) (absq (flavour (sc s))) (abs2 absq (mkSt (begun FL (sc s)) (sfl s) (spc s) None))).
    { destruct (spx s) as [px|]; [|reflexivity]. destruct Hx as [Hx|Hx]; [discriminate|].
      apply step_unprefixed. now apply ignored_unprefixed. }
    rewrite E. now apply run_none_isa.
  - intros px -> HI. now apply run_pfx_isa.
Qed.
Lemma exec_code_isa dbg c (s : @st Q) : byte c -> wfst s ->
  wpm (exec_code FL dbg c) s (fun s' r l => good absq (exec_op ch c (abs2 absq s)) s' r l /\ wfst s').
Proof.
  intros Hc Hs. apply wpl_and; [|now apply exec_code_wf]. destruct dbg; [|now apply exec_code_isa0].
  pose (P := fun (x : @st Q * option (exit_reason WB RB)) l => good (TS:=TS) absq (exec_op ch c (abs2 absq s)) (fst x) (snd x) l).
  assert (N : forall x l, P x (nodebug l) <-> P x l)
    by (intros; unfold P, good; now rewrite buses_nodebug, clocks_nodebug).
  apply (wpl_mono _ (fun x l => P x (nodebug l))); [intros x l; apply N|].
  apply (dsim_wpl _ _ (exec_code_sim FL c s)).
  - refine (wpl_mono _ _ _ _ (exec_code_wf FL true c s Hc Hs)). trivial.
  - refine (wpl_mono _ _ _ _ (exec_code_isa0 c s Hc Hs)). intros x l. apply N.
Qed.

(** ** Entry points *)
Definition post (t : cyc WB RB (arch T * outcome WB RB)) (x : cpu Q * result WB RB) (l : list (ev TS WB RB)) : Prop :=
  wf (fst x) /\ exists o, snd x = result_of o /\ accepts t (buses l) (clocks l) (abs absq (fst x), o).

Lemma abs2_load c : abs2 absq (load_st c) = abs absq c.
Proof. rewrite <- abs2_eq. apply abs_load. Qed.
Lemma execute_instruction_isa dbg code c : byte code -> wf c ->
  wpl (execute_instruction FL dbg code c) (post (exec ch code (abs absq c))).
Proof.
  intros Hc Hw. unfold execute_instruction. apply wpl_bind.
  assert (Hs : wfst (load_st (set_halt false (set_last_ei false c)))) by (apply wf_load; auto with rng).
  refine (wpl_mono _ _ _ _ (exec_code_isa dbg code _ Hc Hs)).
  intros [s' x] l [(o & Ho & Ha) Hw']. cbn [fst snd Trace.wpl] in *. rewrite app_nil_r.
  split; [now apply wf_store|]. exists o. cbn [fst snd]. split; [subst x; apply result_reason|].
  rewrite abs_store by apply Hw'. rewrite abs2_eq. rewrite abs2_load in Ha. exact Ha.
Qed.

(** A log prefix against the start of a tree. *)
Ltac redx :=
  cbv beta iota zeta delta
   [accept_int accept_nmi next fetch resume done imm8 imm8x imm16 rd16 push pop jump inc_R IR abs
    aA aF aBC aDE aHL aAF' aBC' aDE' aHL' aIX aIY aSP aPC aWZ aI aR aIM aIFF1 aIFF2 aHALT aEI aPX aQ
    wA wF wBC wDE wHL wAF' wBC' wDE' wHL' wIX wIY wSP wPC wWZ wI wR wIM wIFF1 wIFF2 wHALT wEI wPX wQ
    set_af set_af_alt set_bc set_de set_hl set_ix set_iy set_pc set_sp set_memptr set_last_ei set_ir set_im
    set_iffs set_halt set_prefix set_rfield set_flavour
    af af_alt bc de hl bc_alt de_alt hl_alt ix iy pc sp memptr last_ei ir im iff1 iff2 halt prefix r flavour
    get_acc get_flags get_i inc_r disable_interrupts fst snd buses clocks flat_map bus1 clk1 app]; fold16.

Lemma exec_eq dbg code c a : byte code -> wf c -> abs absq c = a ->
  wpl (execute_instruction FL dbg code c) (post (exec ch code a)).
Proof. intros Hc Hw <-. now apply execute_instruction_isa. Qed.

(** The rest of the log after a known beginning. *)
Lemma post_pre (k : prog TS WB RB (cpu Q * result WB RB)) t t' pre :
  wpl k (post t') ->
  (forall bl cl x, accepts t' bl cl x -> accepts t (buses pre ++ bl) (clocks pre ++ cl) x) ->
  wpl k (fun x l => post t x (pre ++ l)).
Proof.
  intros Hk Hp. refine (wpl_mono _ _ _ _ Hk). intros x l (Hw & o & Ho & Ha).
  split; [exact Hw|]. exists o. split; [exact Ho|]. rewrite buses_app, clocks_app. now apply Hp.
Qed.

Lemma post_eq t t' x l : t = t' -> post t x l -> post t' x l.
Proof. now intros ->. Qed.
Lemma abs_inc_r (c : cpu Q) : abs absq (inc_r c) = inc_R (abs absq c).
Proof.
  unfold abs, inc_R. cbn [aR wR]. rewrite !get_r_rval. unfold inc_r.
  cbn [set_rfield ir r]. rewrite rval_inc. reflexivity.
Qed.
Lemma IR_abs (c : cpu Q) : wf c -> get_ir c = IR (abs absq c).
Proof.
  intros Hw. rewrite get_ir_rval by apply Hw. unfold IR, abs. cbn [aI aR]. rewrite get_r_rval. reflexivity.
Qed.
Lemma vaddr_ok i v : word i -> byte v -> Z.lor (Z.land i 0xFF00) v = mk16 (hi8 i) v.
Proof.
  intros Hi Hv.
  assert (E : Z.land i 0xFF00 = 256 * (i / 256)).
  { assert (E : Z.lor (Z.land i 0xFF00) (Z.land i 0xFF) = i).
    { rewrite <- Z.land_lor_distr_r. change (Z.lor 65280 255) with (Z.ones 16).
      rewrite Z.land_ones by lia. apply Z.mod_small. exact Hi. }
    change 255 with (Z.ones 8) in E. rewrite (Z.land_ones i 8) in E by lia. change (2 ^ 8) with 256 in E.
    rewrite lor_add in E; [lia|]. change 256 with (2 ^ 8). rewrite <- (Z.land_ones i 8) by lia.
    rewrite Z.land_assoc, (Z.land_comm (Z.land i 65280) i), Z.land_assoc, Z.land_diag, <- Z.land_assoc. apply Z.land_0_r. }
  rewrite lor_add.
  - rewrite E. unfold mk16, hi8. lia.
  - replace v with (Z.land v (Z.ones 8)) by (rewrite Z.land_ones by lia; apply Z.mod_small; exact Hv).
    rewrite (Z.land_comm v), <- Z.land_assoc, (Z.land_assoc 65280). change (Z.land 65280 (Z.ones 8)) with 0.
    rewrite Z.land_0_l. apply Z.land_0_r.
Qed.
Lemma push16_log v (c : cpu Q) :
  wpl (on_cpu (push16 v) c) (fun x l => fst x = set_sp (u16 (sp c - 2)) c /\
    exists t1 t2, l = [KMreq (u16 (sp c - 1)) t1; EWr (u16 (sp c - 1)) (hi8 v) t1;
                       KMreq (u16 (sp c - 2)) t2; EWr (u16 (sp c - 2)) (lo8 v) t2]).
Proof. unfold on_cpu, push16, push2. cbn. intros t1 t2. rewrite dec2. eauto. Qed.
Lemma fetch_log (c : cpu Q) : wf c ->
  wpl (on_cpu (fetch_next_opcode (pc c)) c) (fun x l => fst x = inc_r c /\ fst (snd x) = u16 (pc c + 1) /\
    byte (snd (snd x)) /\ exists t, l = [KM1 (pc c) t; EOp (pc c) (get_ir (inc_r c)) t (snd (snd x))]).
Proof. intros Hw. unfold on_cpu, fetch_next_opcode. cbn. eauto 8. Qed.
Lemma irq_no_check_isa dbg c : wf c ->
  wpl (irq_no_check FL dbg c) (post (accept_int ch (abs absq c))).
Proof.
  intros Hw. unfold irq_no_check. cbv zeta.
  assert (Hw1 : wf (inc_r (disable_interrupts c))) by auto with rng.
  assert (E1 : abs absq (inc_r (disable_interrupts c)) = inc_R (wIFF1 false (wIFF2 false (abs absq c))))
    by (rewrite abs_inc_r; reflexivity).
  set (c1 := inc_r (disable_interrupts c)) in *. clearbody c1.
  unfold accept_int. rewrite <- E1. cbv zeta.
  assert (E : exists c2, (if halt c1 then (set_pc (u16 (pc c1 + 1)) (set_halt false c1), u16 (pc c1 + 1)) else (c1, pc c1)) = (c2, pc c2)
     /\ wf c2 /\ halt c2 = false /\ resume (abs absq c1) = abs absq c2).
  { unfold resume. cbn [abs aHALT]. destruct (halt c1) eqn:Hh;
      [exists (set_pc (u16 (pc c1 + 1)) (set_halt false c1))|exists c1]; (split; [reflexivity|]; split; [auto with rng|];
      split; [assumption || reflexivity|]);
      reflexivity. }
  destruct E as (c2 & -> & Hw2 & Hh & ->). clear c1 Hw1 E1 Hw c. cbn [Trace.wpl]. intros t v w Hv.
  match goal with |- Trace.wpl _ (fun x l => post (SAck _ ?k) _ _) => set (K := k) end.
  assert (G : wpl
         match im c2 with
         | Mode0 => execute_instruction FL dbg v c2
         | Mode1 => execute_instruction FL dbg RST_38H_OPCODE c2
         | Mode2 =>
             AddNoMreq (get_ir c2) 1
               (pbind (on_cpu (push16 (pc c2)) c2)
                  (fun x : cpu Q * unit =>
                   execute_instruction FL dbg JP_OPCODE
                     (set_pc (Z.lor (Z.land (get_ir c2) 65280) v) (fst x))))
         end (post (K v))).
  { subst K. cbv beta. cbn [abs aIM]. destruct (im c2).
    - now apply execute_instruction_isa.
    - refine (wpl_mono _ _ _ _ (execute_instruction_isa dbg RST_38H_OPCODE c2 _ Hw2)); [|unfold byte; cbv; intuition discriminate].
      intros x l. apply post_eq. unfold exec, exec_op, abs. rewrite Hh. reflexivity.
    - cbn [Trace.wpl]. apply wpl_bind. refine (wpl_mono _ _ _ _ (push16_log _ _)).
      intros x l (Ex & t1 & t2 & El). rewrite Ex, El.
      assert (Hv' : Z.lor (Z.land (get_ir c2) 65280) v = mk16 (get_i c2) v).
      { rewrite vaddr_ok; [|rewrite get_ir_rval by apply Hw2; auto with rng|exact Hv].
        rewrite get_ir_rval by apply Hw2. rewrite hi_mk by auto with rng. reflexivity. }
      rewrite Hv', (IR_abs c2 Hw2).
      cbn [app]. refine (post_pre _ _ _ [_; _; _; _; _] (execute_instruction_isa dbg JP_OPCODE _ _ _) _).
      + unfold byte; cbv; intuition discriminate.
      + unfold get_i. auto with rng.
      + intros bl cl y Ha. cbn [buses clocks flat_map bus1 clk1 app]. unfold push. cbn [accepts aSP wEI wPX wQ abs].
        repeat (split; [reflexivity|]). 
        refine (eq_ind _ (fun t => accepts t bl cl y) Ha _ _).
        unfold exec, exec_op, abs. cbn [set_pc set_sp prefix aPX]. rewrite Hh. reflexivity. }
  destruct w as [n|]; cbn [Trace.wpl].
  - refine (post_pre _ _ (K v) [_; _; _] G _). intros bl cl x Ha. cbn [buses clocks flat_map bus1 clk1 app accepts].
    repeat split. exact Ha.
  - refine (post_pre _ _ (K v) [_; _] G _). intros bl cl x Ha. cbn [buses clocks flat_map bus1 clk1 app accepts].
    repeat split. exact Ha.
Qed.
Lemma nmi_no_check_isa (c : cpu Q) : wf c ->
  wpl (nmi_no_check FL c) (fun c' l => wf c' /\ accepts (WB:=WB) (RB:=RB) (accept_nmi ch (abs absq c)) (buses l) (clocks l) (abs absq c', ONext)).
Proof.
  intros Hw. apply wpl_and; [now apply nmi_no_check_wf|]. unfold nmi_no_check. cbv zeta.
  set (c1 := inc_r (set_iffs false (iff2 (set_last_ei false c)) (set_last_ei false c))).
  assert (Hw1 : wf c1) by (subst c1; auto with rng).
  assert (E1 : abs absq c1 = inc_R (wIFF1 false (wEI false (abs absq c)))) by (subst c1; rewrite abs_inc_r; reflexivity).
  clearbody c1. unfold accept_nmi. rewrite <- E1. cbv zeta.
  assert (E : exists c2, (if halt c1 then (set_halt false c1, u16 (pc c1 + 1)) else (c1, pc c1)) = (c2, aPC (resume (abs absq c1)))
     /\ wf c2 /\ resume (abs absq c1) = wPC (aPC (resume (abs absq c1))) (abs absq c2)).
  { unfold resume. cbn [abs aHALT]. destruct (halt c1) eqn:Hh;
      [exists (set_halt false c1)|exists c1]; (split; [reflexivity|]; split; [auto with rng|]);
      reflexivity. }
  destruct E as (c2 & -> & Hw2 & E2). set (p := aPC _) in *. clearbody p. rewrite E2.
  cbn [Trace.wpl]. intros t. apply wpl_bind. refine (wpl_mono _ _ _ _ (push16_log _ _)).
  intros x l (Ex & t1 & t2 & El). rewrite Ex, El, (IR_abs c2 Hw2). cbn [Trace.wpl app].
  cbn [buses clocks flat_map bus1 clk1 app]. unfold push, done. cbn [accepts aSP aPC wPC abs].
  repeat (split; [reflexivity|]). unfold abs. cbn. rewrite (ok_begin _ _ _ CH). reflexivity.
Qed.

Lemma execute_next_isa dbg (c : cpu Q) : wf c -> wpl (execute_next FL dbg c) (post (next ch (abs absq c))).
Proof.
  intros Hw. unfold execute_next, next. cbv zeta.
  match goal with |- context [if int_enabled _ then _ else ?g] => set (go := g) end.
  assert (G : wpl (if halt c then AddM1 (pc c) (fun _ => Ret (inc_r c, None))
    else pbind (on_cpu (fetch_next_opcode (pc c)) c)
           (fun x => execute_instruction FL dbg (snd (snd x)) (set_pc (fst (snd x)) (fst x)))) (post go)).
  { subst go. cbn [abs aHALT]. destruct (halt c).
    - cbn [Trace.wpl]. intros t. split; [cbn; auto with rng|]. exists ONext. cbn [fst snd].
      split; [reflexivity|]. cbn [buses clocks flat_map bus1 clk1 app]. unfold done. cbn [accepts aPC abs].
      rewrite abs_inc_r. repeat split.
    - apply wpl_bind. refine (wpl_mono _ _ _ _ (fetch_log c Hw)).
      intros [c' [p v]] l (Ec & Ep & Hv & t & El). cbn [fst snd] in *. subst.
      refine (post_pre _ _ _ [_; _] (execute_instruction_isa dbg v _ Hv _) _); [auto with rng|].
      intros bl cl x Ha. cbn [buses clocks flat_map bus1 clk1 app]. unfold fetch. cbv zeta.
      rewrite <- abs_inc_r. cbn [accepts aPC abs]. split; [reflexivity|]. split; [|split; [reflexivity|]].
      + rewrite <- IR_abs by auto with rng. reflexivity.
      + exact Ha. }
  unfold test_irq. assert (EI : is_irq_allowed c = int_enabled (abs absq c)).
  { unfold is_irq_allowed, is_int_allowed, int_enabled, nmi_enabled. cbn [abs aIFF1 aEI aPX].
    destruct (iff1 c), (last_ei c), (prefix c); reflexivity. }
  rewrite EI. destruct (int_enabled (abs absq c)); [|exact G].
  cbn [Trace.wpl]. intros t b. destruct b.
  - refine (post_pre _ _ _ [_; _] (irq_no_check_isa dbg c Hw) _). intros bl cl x Ha. exact Ha.
  - refine (post_pre _ _ _ [_; _] G _). intros bl cl x Ha. exact Ha.
Qed.
End Isa.
