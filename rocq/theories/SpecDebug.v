(** What a debugger ought to be told (C12). *)
From Coq Require Import ZArith Bool String List.
From Verif Require Import Base Parse Cpu Prog Trace SpecIsa SpecInt.
Import ListNotations.
Open Scope list_scope.
Open Scope Z_scope.

Section Log.
Context {TS WB RB : Type}.
Notation ev := (ev TS WB RB).
(** The bytes read by an access, with their addresses. *)
Definition code_reads (e : ev) : list (Z * Z) :=
  match e with
  | EOp a _ _ v | ERd a _ v | ERdDebug a v => [(a, v)]
  | ERd16 a _ v => [(a, v mod 256); ((a + 1) mod 65536, v / 256)]
  | _ => []
  end.
Definition silent (e : ev) : Prop := match e with EDebug _ => False | _ => True end.
(** No access but reading memory and looking at the interrupt line. *)
Definition fetching (e : ev) : Prop :=
  match e with EDebug _ | EWr _ _ _ | EIn _ _ _ _ | EOut _ _ _ _ _ | EReti _ _ _ | EIrqData _ _ _ _ => False | _ => True end.
(** [n] consecutive addresses. *)
Fixpoint addrs (p : Z) (n : nat) : list Z := match n with O => [] | S n => p :: addrs ((p + 1) mod 65536) n end.
(** [d] is reported, and nothing else is; up to then exactly the bytes [rd] of the instruction, but the first ones [first],
    have been read, from address [p] on; [d] consists of them and gives the address of its first byte. *)
Definition reported (first : list Z) (p : Z) (l : list ev) (d : CpuDebug) : Prop :=
  exists l1 l2 rd, l = l1 ++ EDebug d :: l2 /\ Forall fetching l1 /\ Forall silent l2 /\
    flat_map code_reads l1 = rd /\ map fst rd = addrs p (length rd) /\
    dcode d = first ++ map snd rd /\ dpc d = (p - Z.of_nat (length first)) mod 65536.
(** [code] is the first byte read, from address [p], as an op-code. *)
Definition first_op (l : list ev) (p code : Z) : Prop :=
  exists l0 i t l1, l = l0 ++ EOp p i t code :: l1 /\ flat_map code_reads l0 = [].
End Log.

(** Does a DD/FD prefix change the meaning of op-code [c]?  Those that use HL, H, L or (HL) as an operand, except
    EX DE,HL and, as after ED, the block and extended instructions. *)
Definition indexable (c : Z) : bool :=
  let x := c / 64 in let y := (c / 8) mod 8 in let z := c mod 8 in
  let hl i := (4 <=? i) && (i <=? 6) in
  if x =? 0 then
    if z =? 1 then (y mod 2 =? 1) || (y =? 4)
    else if z =? 2 then (y =? 4) || (y =? 5)
    else if z =? 3 then (y =? 4) || (y =? 5)
    else if (4 <=? z) && (z <=? 6) then hl y
    else false
  else if x =? 1 then (hl y || hl z) && negb (c =? 0x76)
  else if x =? 2 then hl z
  else existsb (Z.eqb c) [0xCB; 0xE1; 0xE3; 0xE5; 0xE9; 0xF9].
(** Length of an instruction without its prefix; [px]: is it prefixed and indexable? [c2]: the byte after op-code [c]. *)
Definition oplen (px : bool) (c c2 : Z) : Z :=
  let x := c / 64 in let y := (c / 8) mod 8 in let z := c mod 8 in
  let d := if px then 1 else 0 in
  if c =? 0xED then (if (c2 / 64 =? 1) && (c2 mod 8 =? 3) then 4 else 2)
  else if c =? 0xCB then (2 + d)
  else if x =? 0 then
    if z =? 0 then (if y <? 2 then 1 else 2)
    else if z =? 1 then (if y mod 2 =? 0 then 3 else 1)
    else if z =? 2 then (if y <? 4 then 1 else 3)
    else if (z =? 4) || (z =? 5) then if y =? 6 then (1 + d) else 1
    else if z =? 6 then if y =? 6 then (2 + d) else 2
    else 1
  else if x =? 1 then if xorb (y =? 6) (z =? 6) then (1 + d) else 1
  else if x =? 2 then if z =? 6 then (1 + d) else 1
  else if (z =? 2) || (z =? 4) then 3
  else if z =? 6 then 2
  else if (c =? 0xC3) || (c =? 0xCD) then 3
  else if (c =? 0xD3) || (c =? 0xDB) then 2
  else 1.
Definition is_prefix (c : Z) : bool := (c =? 0xDD) || (c =? 0xFD).
(** The prefix byte, as far as it concerns op-code [c]. *)
Definition used_prefix (px : option Prefix) (c : Z) : option Prefix := if indexable c then px else None.
Definition pbyte (px : option Prefix) : list Z := match px with None => [] | Some Xdd => [0xDD] | Some Yfd => [0xFD] end.

(** ** What the report says about the instruction (C43) *)
(** Operands of an instruction. *)
Inductive opnd :=
| O_r (r : Reg8) | O_x (r : Reg8)               (* register; register with the prefix: H and L are halves of IX/IY *)
| O_g (g : Reg16) | O_gx (g : Reg16)            (* register pair; likewise *)
| O_s (g : StkReg16) | O_n | O_k (n : Z) | O_nn | O_mnn | O_e | O_ind (g : Reg16) | O_idx | O_jidx
| O_pn | O_pc | O_cc (c : Condition) | O_bit (b : Z) | O_im (m : InterruptMode) | O_i | O_rf.
Definition tmpl : Type := string * list opnd.
Definition operands (a : CpuDebugArgs) : list CpuDebugArg :=
  match a with
  | ANone => [] | ASingle a => [a] | ADouble a b => [a; b]
  | ABitOpExt b a r => [DBit b; a; DReg8 None r]
  end.
Definition signed (d : Z) : Z := if d <? 128 then d else d - 256.
(** The value of an operand: [bs] the bytes of the instruction without prefix [px]; [nx] the address following it. *)
Definition opnd_val (px : option Prefix) (bs : list Z) (nx : Z) (o : opnd) : CpuDebugArg :=
  let n := last bs 0 in let nn := 256 * last bs 0 + last (removelast bs) 0 in
  let ix := match px with Some p => p | None => Xdd end in
  match o with
  | O_r r => DReg8 None r
  | O_x r => DReg8 px r
  | O_g g => DReg16 None g
  | O_gx g => DReg16 px g
  | O_s g => DStk16 g
  | O_n => DImm8 n
  | O_k k => DImm8 k
  | O_nn => DImm16 nn
  | O_mnn => DAddr (ImmAddr nn)
  | O_e => DImm16 ((nx + signed n) mod 65536)
  | O_ind g => DAddr (RegAddr g)
  | O_idx => DAddr (IndexAddr ix (Some (signed (nth 1 bs 0))))
  | O_jidx => DAddr (IndexAddr ix None)
  | O_pn => DPort (ImmPort n)
  | O_pc => DPort RegPort
  | O_cc c => DCond c
  | O_bit b => DBit b
  | O_im m => DIntMode m
  | O_i => DI
  | O_rf => DR
  end.
(** Names of the instructions, as in the manual. *)
Open Scope string_scope.
Definition acc_name (o : accop) : string :=
  match o with O_RLCA => "RLCA" | O_RRCA => "RRCA" | O_RLA => "RLA" | O_RRA => "RRA" | O_DAA => "DAA" | O_CPL => "CPL" end.
Definition alu_text (o : Ops8) (x : opnd) : tmpl :=
  match o with
  | ADD => ("ADD", [O_r A; x]) | ADC => ("ADC", [O_r A; x]) | SBC8 => ("SBC", [O_r A; x])
  | SUB => ("SUB", [x]) | AND => ("AND", [x]) | XOR => ("XOR", [x]) | OR => ("OR", [x]) | CP => ("CP", [x])
  end.
Definition rot_name (o : Rot) : string :=
  match o with RLC => "RLC" | RRC => "RRC" | RL => "RL" | RR => "RR"
             | SLA => "SLA" | SRA => "SRA" | SLL => "SLL" | SRL => "SRL" end.
(** CB group on operand [x]. *)
Definition cb_text (o : cbop) (x : opnd) : tmpl :=
  match o with
  | C_Rot r => (rot_name r, [x]) | C_Bit n => ("BIT", [O_bit n; x])
  | C_Res n => ("RES", [O_bit n; x]) | C_Set n => ("SET", [O_bit n; x])
  end.
(** After DD CB d: the result is also stored in the register. *)
Definition xcb_text (o : cbop) (g : option Reg8) : tmpl :=
  let (s, l) := cb_text o O_idx in
  match o, g with
  | C_Bit _, _ | _, None => (s, l)
  | _, Some r => (s, (l ++ [O_r r])%list)
  end.
Definition ed_text (i : edinstr) : tmpl :=
  match i with
  | D_NOP => ("NOP*", []) | D_NEG => ("NEG", []) | D_IM m => ("IM", [O_im m])
  | D_RETN => ("RETN", []) | D_RETI => ("RETI", []) | D_RLD => ("RLD", []) | D_RRD => ("RRD", [])
  | D_LD_A_I => ("LD", [O_r A; O_i]) | D_LD_A_R => ("LD", [O_r A; O_rf])
  | D_LD_I_A => ("LD", [O_i; O_r A]) | D_LD_R_A => ("LD", [O_rf; O_r A])
  | D_LD_rp_mem g => ("LD", [O_g g; O_mnn]) | D_LD_mem_rp g => ("LD", [O_mnn; O_g g])
  | D_ADC16 g => ("ADC", [O_g HL; O_g g]) | D_SBC16 g => ("SBC", [O_g HL; O_g g])
  | D_IN (Some r) => ("IN", [O_r r; O_pc]) | D_IN None => ("IN", [O_pc])
  | D_OUT (Some r) => ("OUT", [O_pc; O_r r]) | D_OUT None => ("OUT", [O_pc])
  | D_LDx dn rep => ("LD" ++ (if dn then "D" else "I") ++ (if rep then "R" else ""), [])
  | D_CPx dn rep => ("CP" ++ (if dn then "D" else "I") ++ (if rep then "R" else ""), [])
  | D_INx dn rep => ("IN" ++ (if dn then "D" else "I") ++ (if rep then "R" else ""), [])
  | D_OUTx dn rep => ((if rep then "OT" else "OUT") ++ (if dn then "D" else "I") ++ (if rep then "R" else ""), [])
  end.
(** Main group; [px]: is there a prefix (in effect)? *)
Definition main_text (px : bool) (i : instr) : tmpl :=
  let m := if px then O_idx else O_ind HL in
  let hl := O_gx HL in
  match i with
  | I_NOP => ("NOP", []) | I_HALT => ("HALT", []) | I_DI => ("DI", []) | I_EI => ("EI", [])
  | I_EX_AF => ("EX", [O_s SAF; O_s SAF]) | I_EX_DE_HL => ("EX", [O_g DE; O_g HL]) | I_EXX => ("EXX", [])
  | I_EX_SP => ("EX", [O_ind SP; hl])
  | I_LD_rr d s => ("LD", [O_x d; O_x s])
  | I_LD_rm d => ("LD", [O_r d; m]) | I_LD_mr s => ("LD", [m; O_r s])
  | I_LD_rn d => ("LD", [O_x d; O_n]) | I_LD_mn => ("LD", [m; O_n])
  | I_LD_A_rp g => ("LD", [O_r A; O_ind g]) | I_LD_rp_A g => ("LD", [O_ind g; O_r A])
  | I_LD_A_nn => ("LD", [O_r A; O_mnn]) | I_LD_nn_A => ("LD", [O_mnn; O_r A])
  | I_LD_rp_nn g => ("LD", [O_gx g; O_nn])
  | I_LD_HL_mem => ("LD", [hl; O_mnn]) | I_LD_mem_HL => ("LD", [O_mnn; hl])
  | I_LD_SP_HL => ("LD", [O_g SP; hl])
  | I_PUSH g => ("PUSH", [if px then hl else O_s g]) | I_POP g => ("POP", [if px then hl else O_s g])
  | I_ALU_r o s => alu_text o (O_x s) | I_ALU_m o => alu_text o m | I_ALU_n o => alu_text o O_n
  | I_INC8 (Some g) => ("INC", [O_x g]) | I_INC8 None => ("INC", [m])
  | I_DEC8 (Some g) => ("DEC", [O_x g]) | I_DEC8 None => ("DEC", [m])
  | I_INC16 g => ("INC", [O_gx g]) | I_DEC16 g => ("DEC", [O_gx g])
  | I_ADD16 g => ("ADD", [hl; O_gx g])
  | I_ACC o => (acc_name o, []) | I_SCF => ("SCF", []) | I_CCF => ("CCF", [])
  | I_JP => ("JP", [O_nn]) | I_JPcc c => ("JP", [O_cc c; O_nn])
  | I_JP_HL => ("JP", [if px then O_jidx else O_ind HL])
  | I_JR => ("JR", [O_e]) | I_JRcc c => ("JR", [O_cc c; O_e]) | I_DJNZ => ("DJNZ", [O_e])
  | I_CALL => ("CALL", [O_nn]) | I_CALLcc c => ("CALL", [O_cc c; O_nn])
  | I_RET => ("RET", []) | I_RETcc c => ("RET", [O_cc c]) | I_RST a => ("RST", [O_k a])
  | I_IN_A => ("IN", [O_r A; O_pn]) | I_OUT_A => ("OUT", [O_pn; O_r A])
  | I_CB | I_ED | I_PFX _ => ("", [])
  end.
(** The bytes [c :: bs] following the prefix, if any. *)
Definition text (px : option Prefix) (c : Z) (bs : list Z) : tmpl :=
  match decode c, px with
  | I_CB, None => let (o, g) := cb_decode (nth 0 bs 0) in cb_text o (match g with Some r => O_r r | None => O_ind HL end)
  | I_CB, Some _ => let (o, g) := cb_decode (nth 1 bs 0) in xcb_text o g
  | I_ED, _ => ed_text (ed_decode (nth 0 bs 0))
  | i, None => main_text false i
  | i, Some _ => main_text true i
  end.
(** [d] gives the bytes of one complete instruction, and its mnemonic and operands are those of that instruction at
    the reported address. *)
Definition well_described (d : CpuDebug) : Prop :=
  exists c bs, dcode d = (pbyte (dprefix d) ++ c :: bs)%list /\
    is_prefix c = false /\
    (dprefix d <> None -> indexable c = true) /\
    Z.of_nat (List.length (c :: bs)) = oplen (match dprefix d with None => false | _ => true end) c (nth 0 bs 0) /\
    dmnemonic d = fst (text (dprefix d) c bs) /\
    operands (dargs d) = map (opnd_val (dprefix d) (c :: bs) ((dpc d + Z.of_nat (List.length (dcode d))) mod 65536))
                             (snd (text (dprefix d) c bs)).

(** The values a report consists of fit their Rust types. *)
Definition typed (d : CpuDebug) : Prop := Forall byte (dcode d) /\ word (dpc d).

(** ** Interrupt responses *)
(** The instruction executed is the one the device supplies (mode 0), RST 38h or, in mode 2, JP nn with nn read at the
    vector.  Its first byte is not in memory; [snd]: where the following bytes are, or would be, read from. *)
Definition injected {Q} (c : cpu Q) (v : Z) : Z * Z :=
  match im c with
  | Mode0 => (v, return_to c)
  | Mode1 => (0xFF, return_to c)
  | Mode2 => (0xC3, 256 * get_i c + v)
  end.
(** By [reported], the address given is one less. *)
Definition int_rep {Q TS WB RB} (c : cpu Q) (l : list (ev TS WB RB)) : Prop :=
  exists t v w l0 l', byte v /\ l = KIrq (return_to c) t :: EIrqData (return_to c) t v w :: (l0 ++ l')%list /\ Forall silent l0 /\
    if is_prefix (fst (injected c v)) then Forall silent l'
    else exists d, reported [fst (injected c v)] (snd (injected c v)) l' d /\ dprefix d = None /\ well_described d.
