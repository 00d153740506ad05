(** Reports to the debugger: proofs for [PropDebug]. *)
From Coq Require Import ZArith Bool String List Lia.
From Verif Require Import Base Flags Ops Parse Cpu Flavours Prog Trace Internal Instr Exec Decode Sym AluProofs
  Alu16Proofs Range Safe SafeEntry Ewl SpecLog SpecIsa SpecDebug IsaCycles.
Import ListNotations.
Open Scope list_scope.
Open Scope Z_scope.
Ltac Zify.zify_post_hook ::= Z.div_mod_to_equations.

Section Rep.
Context {Q TS WB RB : Type}.
Variable FL : Flavour Q.
Notation M := (M Q TS WB RB).
Notation st := (@st Q).
Notation ev := (ev TS WB RB).
Notation wpl := (Trace.wpl (TS:=TS) (WB:=WB) (RB:=RB)) (only parsing).

Fixpoint cut (l : list ev) : option (list ev * CpuDebug * list ev) :=
  match l with
  | [] => None
  | e :: l =>
      match e with
      | EDebug d => Some ([], d, l)
      | _ => match cut l with Some (l1, d, l2) => Some (e :: l1, d, l2) | None => None end
      end
  end.
Lemma cut_app l l1 d l2 : cut l = Some (l1, d, l2) -> l = (l1 ++ EDebug d :: l2)%list.
Proof.
  revert l1. induction l as [|e l IH]; intros l1 E; [discriminate|]. cbn [cut] in E.
  destruct e; try (destruct (cut l) as [[[? ?] ?]|]; [|discriminate]; injection E as <- <- <-; cbn [app]; f_equal; now apply IH).
  injection E as <- <- <-. reflexivity.
Qed.
Definition quietb (e : ev) : bool := match e with EDebug _ => false | _ => true end.
Definition fetchingb (e : ev) : bool :=
  match e with EDebug _ | EWr _ _ _ | EIn _ _ _ _ | EOut _ _ _ _ _ | EReti _ _ _ | EIrqData _ _ _ _ => false | _ => true end.

(** Length and text as seen by the decoder. *)
Open Scope string_scope.
Definition m_r_addr (g : option Reg8) : opnd := match g with Some r => O_r r | None => O_ind HL end.
Definition m_alu (o : Ops8) (x : opnd) : tmpl :=
  match o with ADD | ADC | SBC8 => (ops8_str o, [O_r A; x]) | _ => (ops8_str o, [x]) end.
Definition m_cb (c : Z) : tmpl :=
  match bitops_from c with
  | BRot r g => (rot_str r, [m_r_addr g])
  | BBit b g => ("BIT", [O_bit b; m_r_addr g])
  | BRes b g => ("RES", [O_bit b; m_r_addr g])
  | BSet b g => ("SET", [O_bit b; m_r_addr g])
  end.
Definition m_xcb (c : Z) : tmpl :=
  let tl g := match g with Some r => [O_r r] | None => [] end in
  match bitops_from c with
  | BRot r g => (rot_str r, O_idx :: tl g)
  | BBit b g => ("BIT", [O_bit b; O_idx])
  | BRes b g => ("RES", O_bit b :: O_idx :: tl g)
  | BSet b g => ("SET", O_bit b :: O_idx :: tl g)
  end.
Definition m_ed (c : Z) : Z * tmpl :=
  let g := reg16_from c in
  match Instr.decode_ed c with
  | E_NOP => (2, ("NOP*", [])) | E_NEG => (2, ("NEG", [])) | E_IM m => (2, ("IM", [O_im m]))
  | E_LD_dd_nn => (4, ("LD", [O_g g; O_mnn])) | E_LD_nn_dd => (4, ("LD", [O_mnn; O_g g]))
  | E_LD_A_ir i => (2, ("LD", [O_r A; if i then O_i else O_rf]))
  | E_LD_ir_A i => (2, ("LD", [if i then O_i else O_rf; O_r A]))
  | E_ADC => (2, ("ADC", [O_g HL; O_g g])) | E_SBC => (2, ("SBC", [O_g HL; O_g g]))
  | E_RLD => (2, ("RLD", [])) | E_RRD => (2, ("RRD", []))
  | E_RET => (2, (if (c =? 0x4D)%Z then "RETI" else "RETN", []))
  | E_LDX d rep => (2, (match d, rep with Increase, false => "LDI" | Increase, true => "LDIR"
                         | Decrease, false => "LDD" | Decrease, true => "LDDR" end, []))
  | E_CPX d rep => (2, (match d, rep with Increase, false => "CPI" | Increase, true => "CPIR"
                         | Decrease, false => "CPD" | Decrease, true => "CPDR" end, []))
  | E_INX d rep => (2, (match d, rep with Increase, false => "INI" | Increase, true => "INIR"
                         | Decrease, false => "IND" | Decrease, true => "INDR" end, []))
  | E_OUTX d rep => (2, (match d, rep with Increase, false => "OUTI" | Increase, true => "OTIR"
                         | Decrease, false => "OUTD" | Decrease, true => "OTDR" end, []))
  | E_IN => (2, ("IN", match reg8_b5_3 c with Some r => [O_r r; O_pc] | None => [O_pc] end))
  | E_OUT => (2, ("OUT", match reg8_b5_3 c with Some r => [O_pc; O_r r] | None => [O_pc] end))
  | E_NONE => (0, ("", []))
  end.
Definition m_none (c c2 : Z) : Z * tmpl :=
  let g := reg16_from c in
  match decode_none c with
  | M_LD_r_r =>
      (1, match reg8_b5_3 c, reg8_b2_0 c with
          | None, None => ("HALT", [])
          | d, s => ("LD", [m_r_addr d; m_r_addr s])
          end)
  | M_OPS_r => (1, m_alu (ops8_from c) (m_r_addr (reg8_b2_0 c)))
  | M_CB => (2, m_cb c2)
  | M_ED => m_ed c2
  | M_NOP => (1, ("NOP", [])) | M_DAA => (1, ("DAA", [])) | M_CPL => (1, ("CPL", [])) | M_CCF => (1, ("CCF", []))
  | M_SCF => (1, ("SCF", [])) | M_DI => (1, ("DI", [])) | M_EI => (1, ("EI", []))
  | M_EX_AF => (1, ("EX", [O_s SAF; O_s SAF])) | M_EX_DE_HL => (1, ("EX", [O_g DE; O_g HL])) | M_EXX => (1, ("EXX", []))
  | M_LD_r_n => (2, ("LD", [m_r_addr (reg8_b5_3 c); O_n]))
  | M_LD_A_rp i => (1, ("LD", [O_r A; O_ind (if i then BC else DE)]))
  | M_LD_rp_A i => (1, ("LD", [O_ind (if i then BC else DE); O_r A]))
  | M_LD_A_nn => (3, ("LD", [O_r A; O_mnn])) | M_LD_nn_A => (3, ("LD", [O_mnn; O_r A]))
  | M_LD_dd_nn => (3, ("LD", [O_g g; O_nn])) | M_LD_nn_HL => (3, ("LD", [O_mnn; O_g HL])) | M_LD_HL_nn => (3, ("LD", [O_g HL; O_mnn]))
  | M_LD_SP_HL => (1, ("LD", [O_g SP; O_g HL]))
  | M_PUSH => (1, ("PUSH", [O_s (stkreg16_from c)])) | M_POP => (1, ("POP", [O_s (stkreg16_from c)]))
  | M_EX_SP_HL => (1, ("EX", [O_ind SP; O_g HL]))
  | M_OPS_n => (2, m_alu (ops8_from c) O_n)
  | M_INC8 => (1, ("INC", [m_r_addr (reg8_b5_3 c)])) | M_DEC8 => (1, ("DEC", [m_r_addr (reg8_b5_3 c)]))
  | M_ADD_HL => (1, ("ADD", [O_g HL; O_g g])) | M_INC16 => (1, ("INC", [O_g g])) | M_DEC16 => (1, ("DEC", [O_g g]))
  | M_RLCA => (1, ("RLCA", [])) | M_RLA => (1, ("RLA", [])) | M_RRCA => (1, ("RRCA", [])) | M_RRA => (1, ("RRA", []))
  | M_JP => (3, ("JP", [O_nn])) | M_JP_cc => (3, ("JP", [O_cc (cond_from c); O_nn])) | M_JP_HL => (1, ("JP", [O_ind HL]))
  | M_JR => (2, ("JR", [O_e])) | M_JR_cc => (2, ("JR", [O_cc (cond_from_jr_subset c); O_e])) | M_DJNZ => (2, ("DJNZ", [O_e]))
  | M_CALL => (3, ("CALL", [O_nn])) | M_CALL_cc => (3, ("CALL", [O_cc (cond_from c); O_nn]))
  | M_RET => (1, ("RET", [])) | M_RET_cc => (1, ("RET", [O_cc (cond_from c)]))
  | M_RST => (1, ("RST", [O_k (u8 (parse_restart_address c))]))
  | M_IN_A_n => (2, ("IN", [O_r A; O_pn])) | M_OUT_n_A => (2, ("OUT", [O_pn; O_r A]))
  | M_PFX _ | M_NONE => (0, ("", []))
  end.
Definition m_pfx (c c3 : Z) : Z * tmpl :=
  match decode_pfx c with
  | P_LD_q_q => match reg8_b5_3 c, reg8_b2_0 c with
      | Some d, Some s => (1, ("LD", [O_x d; O_x s]))
      | Some d, None => (2, ("LD", [O_r d; O_idx]))
      | None, Some s => (2, ("LD", [O_idx; O_r s]))
      | None, None => (0, ("", []))
      end
  | P_LD_q_n => (2, ("LD", [match reg8_b5_3 c with Some r => O_x r | None => O_idx end; O_n]))
  | P_LD_iid_n => (3, ("LD", [O_idx; O_n]))
  | P_LD_ii_nn => (3, ("LD", [O_gx HL; O_nn])) | P_LD_ii_mem => (3, ("LD", [O_gx HL; O_mnn])) | P_LD_nn_ii => (3, ("LD", [O_mnn; O_gx HL]))
  | P_LD_SP_ii => (1, ("LD", [O_g SP; O_gx HL])) | P_EX_SP => (1, ("EX", [O_ind SP; O_gx HL]))
  | P_PUSH => (1, ("PUSH", [O_gx HL])) | P_POP => (1, ("POP", [O_gx HL]))
  | P_INC16 => (1, ("INC", [O_gx HL])) | P_DEC16 => (1, ("DEC", [O_gx HL]))
  | P_OPS_q => match reg8_b2_0 c with Some r => (1, m_alu (ops8_from c) (O_x r)) | None => (2, m_alu (ops8_from c) O_idx) end
  | P_INC8 => match reg8_b5_3 c with Some r => (1, ("INC", [O_x r])) | None => (2, ("INC", [O_idx])) end
  | P_DEC8 => match reg8_b5_3 c with Some r => (1, ("DEC", [O_x r])) | None => (2, ("DEC", [O_idx])) end
  | P_ADD_ii => (1, ("ADD", [O_gx HL; O_gx (reg16_from c)]))
  | P_CB => (3, m_xcb c3)
  | P_JP_ii => (1, ("JP", [O_jidx]))
  | P_IGNORE | P_PFX _ | P_NONE => (0, ("", []))
  end.
Close Scope string_scope.
(** [px]: the prefix in the report; [D] what is expected for the bytes of the instruction. *)
Definition rep (px : option Prefix) (c p : Z) (D : list Z -> Z * tmpl) (l : list ev) : Prop :=
  match cut l with
  | Some (l1, d, l2) => forallb fetchingb l1 = true /\ forallb quietb l2 = true /\
      map fst (flat_map code_reads l1) = addrs p (List.length (flat_map code_reads l1)) /\
      dprefix d = px /\
      dpc d = (p - Z.of_nat (List.length (pbyte px ++ [c]))) mod 65536 /\
      (let bs := map snd (flat_map code_reads l1) in
       dcode d = pbyte px ++ c :: bs /\
       Z.of_nat (List.length (c :: bs)) = fst (D bs) /\
       dmnemonic d = fst (snd (D bs)) /\
       operands (dargs d) = map (opnd_val px (c :: bs) ((dpc d + Z.of_nat (List.length (dcode d))) mod 65536)) (snd (snd (D bs))))
  | None => False
  end.

Lemma none_ed c : byte c -> decode_none c = M_ED -> c = 0xED.
Proof.
  intros Hc E. assert (H : (match decode_none c with M_ED => c =? 0xED | _ => true end) = true).
  { revert c Hc E. intros c Hc _. revert c Hc. apply all_bytesb. vm_compute. reflexivity. }
  rewrite E in H. lia.
Qed.
Ltac dbg_true := dbg_shape; (dbg_args; split; [cbn; lia|]).
Ltac sx := repeat (sx_step ltac:(dbg_true)).
Ltac facts :=
  repeat match goal with
  | |- context [if ?b then _ else _] => is_var b; destruct b
  | E : daa ?a ?f = None |- _ => exfalso; apply (daa_some a f); auto with rng
  end.
Lemma signed_i8 d : i8 d = signed d.
Proof. reflexivity. Qed.
Lemma split_nn v : 256 * (v / 256) + v mod 256 = v.
Proof. lia. Qed.
Lemma rel_addr p v : byte v -> relative_jump_address ((p + 1) mod 65536) v =
  ((((p + 1) mod 65536 - 2) mod 65536 + 2) mod 65536 + signed v) mod 65536.
Proof. intros Hv. unfold byte in Hv. unfold relative_jump_address, signed, i8, u16. destruct (v <? 128) eqn:E; lia. Qed.
Lemma pbyte_some px : pbyte (Some px) = [prefix_to_code px].
Proof. destruct px; reflexivity. Qed.
Ltac leaf :=
  unfold rep, m_none, m_pfx, m_ed, m_cb, m_xcb, m_alu, m_r_addr, d_r_addr; rewrite ?pbyte_some;
  cbn [cut app flat_map code_reads forallb quietb fetchingb map fst snd addrs List.length nth pbyte andb];
  repeat match goal with E : ?x = _ |- context [match ?x with _ => _ end] => rewrite E end;
  repeat match goal with E : ?x = _ |- context [if ?x then _ else _] => rewrite E end;
  cbn [cut app flat_map code_reads forallb quietb fetchingb map fst snd addrs List.length nth pbyte
       dcode dmnemonic dpc dprefix dargs operands opnd_val last removelast andb];
  unfold u16, lsb, msb, lo8, hi8 in *;
  repeat match goal with |- _ /\ _ => split end; try reflexivity; try lia;
  change (Z.of_nat 2) with 2; repeat (first [eassumption|symmetry; eassumption|solve [apply rel_addr; assumption]|f_equal]; try reflexivity; try lia).

Lemma none_prefix c p : byte c -> decode_none c = M_PFX p -> is_prefix c = true.
Proof.
  intros Hc E. assert (H : (match decode_none c with M_PFX _ => is_prefix c | _ => true end) = true).
  { revert c Hc E. intros c Hc _. revert c Hc. apply all_bytesb. vm_compute. reflexivity. }
  now rewrite E in H.
Qed.
Lemma run_none_rep c s : byte c -> spx s = None -> wfst s -> is_prefix c = false ->
  wpm (TS:=TS) (WB:=WB) (RB:=RB) (run_none FL true c) s
    (fun _ _ l => rep None c (spc s) (fun bs => m_none c (nth 0 bs 0)) l).
Proof.
  intros Hc Hp (Hs & Hff & Hpc) HN. destruct s as [k f p px]; cbn in *. subst px.
  pose proof (none_ok_all c Hc) as HE. unfold run_none. sx.
  all: facts.
  all: first [match goal with Hc : byte ?c, HN : is_prefix ?c = false, E : decode_none ?c = M_PFX _ |- _ => exfalso; now rewrite (none_prefix _ _ Hc E) in HN end|idtac].
  all: leaf.
  all: match goal with Hc : byte ?c, E : decode_none ?c = M_ED |- _ = ?c => now rewrite (none_ed c Hc E) end.
Qed.
Lemma pfx_prefix c p : byte c -> decode_pfx c = P_PFX p -> is_prefix c = true.
Proof.
  intros Hc E. assert (H : (match decode_pfx c with P_PFX _ => is_prefix c | _ => true end) = true).
  { revert c Hc E. intros c Hc _. revert c Hc. apply all_bytesb. vm_compute. reflexivity. }
  now rewrite E in H.
Qed.
Lemma run_pfx_rep c px s : byte c -> spx s = Some px -> wfst s -> is_prefix c = false -> decode_pfx c <> P_IGNORE ->
  wpm (TS:=TS) (WB:=WB) (RB:=RB) (run_pfx FL true px c) s
    (fun _ n l => n = PDone /\ rep (Some px) c (spc s) (fun bs => m_pfx c (nth 1 bs 0)) l).
Proof.
  intros Hc Hp (Hs & Hff & Hpc) HN HI. destruct s as [k f p px']; cbn in *. subst px'.
  pose proof (pfx_ok_all c Hc) as HE. unfold run_pfx. sx.
  all: facts.
  all: first [contradiction|match goal with Hc : byte ?c, HN : is_prefix ?c = false, E : decode_pfx ?c = P_PFX _ |- _ => exfalso; now rewrite (pfx_prefix _ _ Hc E) in HN end|idtac].
  all: try (split; [reflexivity|]).
  all: leaf.
Qed.
End Rep.
