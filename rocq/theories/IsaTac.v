(** Tactics for the proof that every instruction of the model runs as the specification [SpecIsa] says. *)
From Coq Require Import ZArith Bool List String Lia ZifyBool.
From Verif Require Import Base Flags Ops Parse Cpu Flavours Prog Trace Internal Instr Exec Decode Sym Range Safe
  AluProofs Alu16Proofs SpecAlu SpecState SpecIsa Accessors IsaLink IsaArith Dbg.
Import ListNotations.
Open Scope Z_scope.
Ltac Zify.zify_post_hook ::= Z.div_mod_to_equations.

Section Isa.
Context {Q T TS WB RB : Type}.
Variable absq : Q -> T.
Notation st := (@st Q).
(** [abs_st] with R in closed form. *)
Definition abs2 (s : st) : arch T :=
  let c := sc s in
  mkArch (hi8 (af c)) (sfl s) (bc c) (de c) (hl c) (af_alt c) (bc_alt c) (de_alt c) (hl_alt c)
         (ix c) (iy c) (sp c) (spc s) (memptr c) (hi8 (ir c)) (rval (ir c) (r c)) (im c) (iff1 c) (iff2 c) (halt c)
         (last_ei c) (spx s) (absq (flavour c)).
Lemma abs2_eq s : abs_st absq s = abs2 s.
Proof. unfold abs_st, abs2. rewrite get_r_rval. reflexivity. Qed.
Definition good (t : cyc WB RB (arch T * outcome WB RB)) (s' : st) (r : option (exit_reason WB RB))
    (l : list (ev TS WB RB)) : Prop :=
  exists o, r = reason_of o /\ accepts t (buses l) (clocks l) (abs2 s', o).

End Isa.

Ltac sx := repeat (sx_step ltac:(idtac)).
Ltac side := solve [eauto 8 with rng].

Ltac fold16 := change hi with hi8; change lo with lo8; change w16 with u16; change w8 with u8; change word_of with mk16.
Ltac red1 :=
  cbv beta iota zeta delta
   [step good abs2 ea imm8 imm8x imm16 rd16 push pop fetch jump done out
    g_hl s_hl g_r s_r g_rp s_rp g_rp2 s_rp2 s_f inc_R IR alu acc
    aA aF aBC aDE aHL aAF' aBC' aDE' aHL' aIX aIY aSP aPC aWZ aI aR aIM aIFF1 aIFF2 aHALT aEI aPX aQ
    wA wF wBC wDE wHL wAF' wBC' wDE' wHL' wIX wIY wSP wPC wWZ wI wR wIM wIFF1 wIFF2 wHALT wEI wPX wQ
    set_af set_af_alt set_bc set_de set_hl set_ix set_iy set_pc set_sp set_memptr set_last_ei set_ir set_im
    set_iffs set_halt set_prefix set_rfield set_flavour
    af af_alt bc de hl bc_alt de_alt hl_alt ix iy pc sp memptr last_ei ir im iff1 iff2 halt prefix r flavour
    get_reg set_reg get_r16 set_r16 get_reg16 set_reg16 get_index16 set_index16 get_prefix_reg16
    rp_bc_de delta16 get_acc set_acc get_flags set_flags get_i set_i set_r inc_r do_halt exx ex_de_hl
    restore_iff1 disable_interrupts enable_interrupts load_reg lsb msb
    sc sfl spc spx fst snd
    accepts waited buses clocks flat_map bus1 clk1 app andb orb negb]; fold16.
Ltac red2 :=
  cbv beta iota zeta delta
   [ed_step cb cb_reg cb_mem dir again rot good abs2 ea imm8 imm8x imm16 rd16 push pop fetch jump done out
    g_hl s_hl g_r s_r g_rp s_rp g_rp2 s_rp2 s_f inc_R IR alu acc
    aA aF aBC aDE aHL aAF' aBC' aDE' aHL' aIX aIY aSP aPC aWZ aI aR aIM aIFF1 aIFF2 aHALT aEI aPX aQ
    wA wF wBC wDE wHL wAF' wBC' wDE' wHL' wIX wIY wSP wPC wWZ wI wR wIM wIFF1 wIFF2 wHALT wEI wPX wQ
    set_af set_af_alt set_bc set_de set_hl set_ix set_iy set_pc set_sp set_memptr set_last_ei set_ir set_im
    set_iffs set_halt set_prefix set_rfield set_flavour
    af af_alt bc de hl bc_alt de_alt hl_alt ix iy pc sp memptr last_ei ir im iff1 iff2 halt prefix r flavour
    get_reg set_reg get_r16 set_r16 get_reg16 set_reg16 get_index16 set_index16 get_prefix_reg16
    rp_bc_de delta16 get_acc set_acc get_flags set_flags get_i set_i set_r inc_r do_halt exx ex_de_hl
    restore_iff1 disable_interrupts enable_interrupts load_reg lsb msb
    sc sfl spc spx fst snd
    accepts waited buses clocks flat_map bus1 clk1 app andb orb negb]; fold16.
Ltac hyps :=
  repeat match goal with
  | E : (0 =? 0) = false |- _ => discriminate E
  | E : (1 =? 0) = true |- _ => discriminate E
  | E : (2 =? 0) = true |- _ => discriminate E
  | E : (5 =? 0) = true |- _ => discriminate E
  | E : negb _ = true |- _ => apply negb_true_iff in E
  | E : negb _ = false |- _ => apply negb_false_iff in E
  | E : is_satisfied _ _ = _ |- _ => rewrite sat_holds in E
  | E : fst (cpx ?a ?v ?z ?f) = _ |- _ => rewrite (cpx_ok a v z f) in E by side; cbn [fst] in E
  | E : daa ?a ?f = _ |- _ => rewrite (daa_ok a f) in E by side; first [discriminate E | injection E as <-]
  end;
  match goal with
  | E : bitops_from _ = _ |- _ => pose proof (bitops_num_eq _ _ E); cbn [bitnum_of] in *
  | _ => idtac
  end.
(** Decode the second op-code byte. *)
Ltac dec2nd :=
  match goal with
  | H : byte ?v, E : decode_ed ?v = _ |- _ => rewrite (ed_decode_link v H); unfold link_ed; rewrite E;
      try match goal with E2 : reg16_from v = _ |- _ => rewrite E2 end
  | H : byte ?v, E : bitops_from ?v = _ |- _ => rewrite (cb_decode_link v H); unfold link_cb; rewrite E
  end.
Ltac redh E :=
  cbv beta iota zeta delta
   [set_af set_af_alt set_bc set_de set_hl set_ix set_iy set_pc set_sp set_memptr set_last_ei set_ir set_im
    set_iffs set_halt set_prefix set_rfield set_flavour
    af af_alt bc de hl bc_alt de_alt hl_alt ix iy pc sp memptr last_ei ir im iff1 iff2 halt prefix r flavour
    get_reg set_reg get_r16 set_r16 get_reg16 set_reg16 get_index16 set_index16 get_prefix_reg16
    get_acc set_acc get_i set_i inc_r load_reg lsb msb sc sfl spc spx fst snd orb delta16] in E;
  rewrite ?hi_sethi, ?lo_sethi in E.
Ltac conds :=
  repeat match goal with
  | E : holds _ _ = _ |- _ => rewrite ?E; clear E
  | E : c_iff2_bug _ = _ |- _ => rewrite ?E; clear E
  | E : (_ =? _) = _ |- _ => redh E; rewrite ?E; revert E
  | E : (_ || _)%bool = _ |- _ => redh E; rewrite ?E; revert E
  | E : reg8_b5_3 ?x = _ |- context [reg8_b5_3 ?x] => rewrite ?E; clear E
  end; intros.
Ltac params :=
  repeat match goal with
  | H : none_ok _ = _ |- _ => clear H
  | H : ed_ok _ = _ |- _ => clear H
  | H : pfx_ok _ = _ |- _ => clear H
  | g : Reg8 |- _ => destruct g
  | d : BlockDelta |- _ => destruct d
  | E : decode_none _ = M_LD_A_rp ?b |- _ => is_var b; destruct b
  | E : decode_none _ = M_LD_rp_A ?b |- _ => is_var b; destruct b
  | E : decode_ed _ = E_LD_A_ir ?b |- _ => is_var b; destruct b
  | E : decode_ed _ = E_LD_ir_A ?b |- _ => is_var b; destruct b
  | E : (if ?b then _ else _) = _ |- _ => is_var b; destruct b; [injection E as <- | discriminate E]
  | E : (if ?b then _ else _) = _ |- _ => is_var b; destruct b; [discriminate E | clear E]
  end;
  try match goal with |- context [reg16_from ?c] => destruct (reg16_from c) eqn:? end;
  try match goal with |- context [stkreg16_from ?c] => destruct (stkreg16_from c) end.
Ltac chipq :=
  repeat match goal with
  | E : context [iff2 _] |- _ => cbv beta iota zeta delta [iff2 inc_r set_flavour set_rfield] in E; subst
  | E : context [accept_irq_early _], CH : chip_ok _ ?ch _ |- _ =>
      rewrite (ok_bug _ _ _ CH) in E; cbv beta iota zeta delta [iff1 inc_r set_flavour set_rfield] in E;
      destruct (c_iff2_bug ch) eqn:?; cbv beta iota delta [andb] in E; try discriminate E; subst
  end.
Ltac qside := match goal with CH : chip_ok _ _ _ |- _ => apply (ok_q_byte _ _ _ CH); side end.
Ltac alu1 :=
  match goal with
  | |- context [add ?a ?v ?f] => rewrite (add_ok a v f) by side
  | |- context [adc ?a ?v ?f] => rewrite (adc_ok a v f) by side
  | |- context [sub ?a ?v ?f] => rewrite (sub_ok a v f) by side
  | |- context [sbc ?a ?v ?f] => rewrite (sbc_ok a v f) by side
  | |- context [cp ?a ?v ?f] => rewrite (cp_ok a v f) by side
  | |- context [and8 ?a ?v ?f] => rewrite (and_ok a v f) by side
  | |- context [or8 ?a ?v ?f] => rewrite (or_ok a v f) by side
  | |- context [xor8 ?a ?v ?f] => rewrite (xor_ok a v f) by side
  | |- context [inc ?v ?f] => rewrite (inc_ok v f) by side
  | |- context [dec ?v ?f] => rewrite (dec_ok v f) by side
  | |- context [neg ?v ?f] => rewrite (neg_ok v f) by side
  | |- context [cpl ?v ?f] => rewrite (cpl_ok v f) by side
  | |- context [scf ?v ?f] => rewrite (scf_ok v f) by (first [side | qside])
  | |- context [ccf ?v ?f] => rewrite (ccf_ok v f) by (first [side | qside])
  | |- context [io ?v ?f] => rewrite (io_ok v f) by side
  | |- context [ld_a_ir ?a ?v ?f] => rewrite (ld_a_ir_ok a v f) by side
  | |- context [ldx ?a ?v ?z ?f] => rewrite (ldx_ok a v z f) by side
  | |- context [cpx ?a ?v ?z ?f] => rewrite (cpx_ok a v z f) by side
  | |- context [iox ?a ?v ?z ?f] => rewrite (iox_ok a v z f) by side
  | |- context [rlca ?v ?f] => rewrite (rlca_ok v f) by side
  | |- context [rrca ?v ?f] => rewrite (rrca_ok v f) by side
  | |- context [rla ?v ?f] => rewrite (rla_ok v f) by side
  | |- context [rra ?v ?f] => rewrite (rra_ok v f) by side
  | |- context [rot_op ?o ?v ?f] => rewrite (rot_ok o v f) by side
  | |- context [rld ?a ?v ?f] => rewrite (rld_ok a v f) by side
  | |- context [rrd ?a ?v ?f] => rewrite (rrd_ok a v f) by side
  | |- context [bit ?a ?v ?f] => rewrite (bit_ok a v f) by side
  | |- context [bit_mp ?a ?v ?x ?f] => rewrite (bit_mp_ok a v x f) by side
  | |- context [res ?a ?v] => rewrite (res_ok a v) by side
  | |- context [set ?a ?v] => rewrite (set_ok a v) by side
  | |- context [add16 ?a ?v ?f] => rewrite (add16_ok a v f) by side
  | |- context [adc16 ?a ?v ?f] => rewrite (adc16_ok a v f) by side
  | |- context [sbc16 ?a ?v ?f] => rewrite (sbc16_ok a v f) by side
  | |- context [indexed_address ?a ?v] => rewrite (ix_disp a v) by side
  | |- context [relative_jump_address ?a ?v] => rewrite (jr_disp a v) by side
  end.
Ltac regs1 :=
  match goal with
  | |- context [get_ir ?c] => rewrite (get_ir_rval c) by (cbv beta iota delta [ir]; side); cbv beta iota delta [ir r]
  | |- context [hi8 (set8hi ?w ?v)] => rewrite (hi_sethi w v)
  | |- context [lo8 (set8hi ?w ?v)] => rewrite (lo_sethi w v)
  | |- context [hi8 (set8lo ?w ?v)] => rewrite (hi_setlo w v) by side
  | |- context [lo8 (set8lo ?w ?v)] => rewrite (lo_setlo w v) by side
  | |- context [hi8 (mk16 ?w ?v)] => rewrite (hi_mk w v) by side
  | |- context [lo8 (mk16 ?w ?v)] => rewrite (lo_mk w v) by side
  | |- context [mk16 (?w / 256) (?w mod 256)] => rewrite (mk_divmod w)
  | |- context [mk16 (hi8 ?w) (lo8 ?w)] => rewrite (mk_hi_lo w) by side
  | |- context [rval (set8hi ?w ?v) ?x] => rewrite (rval_seti w v x)
  | |- context [rval (set8lo ?w ?v) ?v] => rewrite (rval_set w v) by side
  | |- context [rval ?i (u8 (?x + 1))] => rewrite (rval_inc i x)
  | CH : chip_ok ?FL _ ?absq |- context [?absq (begin_instruction ?FL ?q)] => rewrite (ok_begin _ _ _ CH)
  | CH : chip_ok ?FL _ ?absq |- context [?absq (flags_modified ?FL ?q)] => rewrite (ok_touch _ _ _ CH)
  | CH : chip_ok ?FL _ ?absq |- context [get_q ?FL (begin_instruction ?FL ?q) ?a ?f] => rewrite (ok_q _ _ _ CH) by side
  | CH : chip_ok ?FL _ ?absq |- context [u8 (constant_out_data ?FL)] => rewrite (ok_out0 _ _ _ CH)
  | CH : chip_ok ?FL _ ?absq |- context [memptr_mix ?FL ?a ?l] =>
      let W := fresh in
      assert (W := ok_wz _ _ _ CH a l ltac:(side) ltac:(side)); cbv beta delta [fst snd] in W; rewrite W; clear W
  end.
Ltac arith1 := rewrite ?dec2, ?inc2_dec, ?add_m1w, ?add_m1b, ?add_p1b.
Ltac outcome1 :=
  match goal with
  | |- exists o, None = _ /\ _ => exists ONext
  | |- exists o, Some Halt = _ /\ _ => exists OHalt
  | |- exists o, Some EnableInt = _ /\ _ => exists OEI
  | |- exists o, Some (WriteIoR ?w) = _ /\ _ => exists (OOut w)
  | |- exists o, Some (RetiR ?w) = _ /\ _ => exists (OReti w)
  end.
Ltac splits := repeat match goal with |- _ /\ _ => split end.
Ltac close :=
  outcome1; repeat first [alu1 | regs1]; arith1; unfold set8hi, set8lo; repeat first [alu1 | regs1]; splits; try reflexivity.
