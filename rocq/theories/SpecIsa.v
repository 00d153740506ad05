(** Independent specification of the Z80: decoding by op-code fields, effect and machine cycles of every
    instruction, interrupts.

    Written from the Zilog manual, "The Undocumented Z80 Documented", the published MEMPTR and Q
    descriptions and the published machine-cycle tables, not from the crate.  An instruction denotes a tree
    of machine cycles ([cyc]); the architectural state is [arch] ([SpecState.v]).  The enumerations
    [Reg8], [Reg16], [StkReg16], [Condition], [Ops8], [Rot], [Prefix], [InterruptMode] of [Parse.v] are used
    as vocabulary only (none of their parsers). *)
From Coq Require Import ZArith Bool List.
From Verif Require Import Parse SpecAlu SpecState.
Import ListNotations.
Open Scope Z_scope.

(** ** Machine cycles *)
(** How an instruction ends. *)
Inductive outcome (WB RB : Type) := ONext | OHalt | OEI | OOut (w : WB) | OReti (r : RB).
Arguments ONext {WB RB}. Arguments OHalt {WB RB}. Arguments OEI {WB RB}.
Arguments OOut {WB RB}. Arguments OReti {WB RB}.

Inductive cyc (WB RB X : Type) : Type :=
| SRet (x : X)                                 (* the end *)
| SM1 (a ir : Z) (k : Z -> cyc WB RB X)        (* op-code fetch at [a], refresh address [ir]: 4 T *)
| SIdleM1 (a : Z) (k : cyc WB RB X)            (* M1 cycle whose op-code is ignored (HALT, NMI): 4 T *)
| SRd (a : Z) (k : Z -> cyc WB RB X)           (* memory read: 3 T *)
| SSkip (a : Z) (k : cyc WB RB X)              (* memory read cycle whose data is not used: 3 T *)
| SWr (a v : Z) (k : cyc WB RB X)              (* memory write: 3 T *)
| SX (a n : Z) (k : cyc WB RB X)               (* [n] internal T-states with [a] on the address bus *)
| SIn (p : Z) (k : Z -> cyc WB RB X)           (* port read: 4 T and the device's wait states *)
| SOut (p v : Z) (k : option WB -> cyc WB RB X)(* port write: 4 T and the device's wait states *)
| SIrq (k : bool -> cyc WB RB X)               (* sample the INT line *)
| SReti (a : Z) (k : option RB -> cyc WB RB X) (* daisy-chained devices see RETI *)
| SAck (a : Z) (k : Z -> cyc WB RB X).         (* interrupt acknowledge: 6 T and wait states *)
Arguments SRet {WB RB X}. Arguments SM1 {WB RB X}. Arguments SIdleM1 {WB RB X}. Arguments SRd {WB RB X}.
Arguments SSkip {WB RB X}. Arguments SWr {WB RB X}. Arguments SX {WB RB X}. Arguments SIn {WB RB X}.
Arguments SOut {WB RB X}. Arguments SIrq {WB RB X}. Arguments SReti {WB RB X}. Arguments SAck {WB RB X}.

(** ** Decoding: x = bits 7-6, y = bits 5-3, z = bits 2-0, p = bits 5-4, q = bit 3 *)
Inductive accop := O_RLCA | O_RRCA | O_RLA | O_RRA | O_DAA | O_CPL.
Inductive instr :=
| I_NOP | I_HALT | I_DI | I_EI | I_EX_AF | I_EX_DE_HL | I_EXX | I_EX_SP
| I_LD_rr (d s : Reg8) | I_LD_rm (d : Reg8) | I_LD_mr (s : Reg8) | I_LD_rn (d : Reg8) | I_LD_mn
| I_LD_A_rp (g : Reg16) | I_LD_rp_A (g : Reg16) | I_LD_A_nn | I_LD_nn_A
| I_LD_rp_nn (g : Reg16) | I_LD_HL_mem | I_LD_mem_HL | I_LD_SP_HL | I_PUSH (g : StkReg16) | I_POP (g : StkReg16)
| I_ALU_r (o : Ops8) (s : Reg8) | I_ALU_m (o : Ops8) | I_ALU_n (o : Ops8)
| I_INC8 (g : option Reg8) | I_DEC8 (g : option Reg8) | I_INC16 (g : Reg16) | I_DEC16 (g : Reg16)
| I_ADD16 (g : Reg16) | I_ACC (o : accop) | I_SCF | I_CCF
| I_JP | I_JPcc (c : Condition) | I_JP_HL | I_JR | I_JRcc (c : Condition) | I_DJNZ
| I_CALL | I_CALLcc (c : Condition) | I_RET | I_RETcc (c : Condition) | I_RST (a : Z)
| I_IN_A | I_OUT_A | I_CB | I_ED | I_PFX (p : Prefix).

Definition pick {X} (d : X) (l : list X) (i : Z) : X := nth (Z.to_nat i) l d.
(** Operand code 6 is (HL). *)
Definition t_r (y : Z) : option Reg8 :=
  pick None [Some B; Some C; Some D; Some E; Some H; Some L; None; Some A] y.
Definition t_rp (p : Z) : Reg16 := pick SP [BC; DE; HL; SP] p.
Definition t_rp2 (p : Z) : StkReg16 := pick SAF [SBC; SDE; SHL; SAF] p.
Definition t_cc (y : Z) : Condition := pick CM [NZ; CZ; NC; CC; PO; PE; CP_; CM] y.
Definition t_alu (y : Z) : Ops8 := pick CP [ADD; ADC; SUB; SBC8; AND; XOR; OR; CP] y.
Definition t_rot (y : Z) : Rot := pick SRL [RLC; RRC; RL; RR; SLA; SRA; SLL; SRL] y.
Definition t_acc (y : Z) : instr :=
  pick I_CCF [I_ACC O_RLCA; I_ACC O_RRCA; I_ACC O_RLA; I_ACC O_RRA; I_ACC O_DAA; I_ACC O_CPL; I_SCF; I_CCF] y.

Definition decode (c : Z) : instr :=
  let x := c / 64 in let y := (c / 8) mod 8 in let z := c mod 8 in
  let p := y / 2 in let q := y mod 2 in
  if x =? 0 then
    pick I_NOP
    [ pick (I_JRcc (t_cc (y - 4))) [I_NOP; I_EX_AF; I_DJNZ; I_JR] y;
      if q =? 0 then I_LD_rp_nn (t_rp p) else I_ADD16 (t_rp p);
      pick I_NOP [I_LD_rp_A BC; I_LD_A_rp BC; I_LD_rp_A DE; I_LD_A_rp DE;
                  I_LD_mem_HL; I_LD_HL_mem; I_LD_nn_A; I_LD_A_nn] y;
      if q =? 0 then I_INC16 (t_rp p) else I_DEC16 (t_rp p);
      I_INC8 (t_r y); I_DEC8 (t_r y);
      match t_r y with Some g => I_LD_rn g | None => I_LD_mn end;
      t_acc y ] z
  else if x =? 1 then
    match t_r y, t_r z with
    | Some d, Some s => I_LD_rr d s | Some d, None => I_LD_rm d
    | None, Some s => I_LD_mr s | None, None => I_HALT
    end
  else if x =? 2 then
    match t_r z with Some s => I_ALU_r (t_alu y) s | None => I_ALU_m (t_alu y) end
  else
    pick I_NOP
    [ I_RETcc (t_cc y);
      if q =? 0 then I_POP (t_rp2 p) else pick I_NOP [I_RET; I_EXX; I_JP_HL; I_LD_SP_HL] p;
      I_JPcc (t_cc y);
      pick I_NOP [I_JP; I_CB; I_OUT_A; I_IN_A; I_EX_SP; I_EX_DE_HL; I_DI; I_EI] y;
      I_CALLcc (t_cc y);
      if q =? 0 then I_PUSH (t_rp2 p) else pick I_NOP [I_CALL; I_PFX Xdd; I_ED; I_PFX Yfd] p;
      I_ALU_n (t_alu y);
      I_RST (8 * y) ] z.

(** CB group. *)
Inductive cbop := C_Rot (r : Rot) | C_Bit (n : Z) | C_Res (n : Z) | C_Set (n : Z).
Definition cb_decode (c : Z) : cbop * option Reg8 :=
  let x := c / 64 in let y := (c / 8) mod 8 in
  (pick (C_Set y) [C_Rot (t_rot y); C_Bit y; C_Res y; C_Set y] x, t_r (c mod 8)).

(** ED group; [dn]: the decrementing variant. *)
Inductive edinstr :=
| D_NOP | D_NEG | D_IM (m : InterruptMode) | D_RETN | D_RETI | D_RLD | D_RRD
| D_LD_A_I | D_LD_A_R | D_LD_I_A | D_LD_R_A
| D_LD_rp_mem (g : Reg16) | D_LD_mem_rp (g : Reg16) | D_ADC16 (g : Reg16) | D_SBC16 (g : Reg16)
| D_IN (g : option Reg8) | D_OUT (g : option Reg8)
| D_LDx (dn rep : bool) | D_CPx (dn rep : bool) | D_INx (dn rep : bool) | D_OUTx (dn rep : bool).
Definition ed_decode (c : Z) : edinstr :=
  let x := c / 64 in let y := (c / 8) mod 8 in let z := c mod 8 in
  let p := y / 2 in let q := y mod 2 in
  if x =? 1 then
    pick D_NOP
    [ D_IN (t_r y); D_OUT (t_r y);
      if q =? 0 then D_SBC16 (t_rp p) else D_ADC16 (t_rp p);
      if q =? 0 then D_LD_mem_rp (t_rp p) else D_LD_rp_mem (t_rp p);
      D_NEG;
      if y =? 1 then D_RETI else D_RETN;
      D_IM (pick Mode0 [Mode0; Mode0; Mode1; Mode2] (y mod 4));
      pick D_NOP [D_LD_I_A; D_LD_R_A; D_LD_A_I; D_LD_A_R; D_RRD; D_RLD; D_NOP; D_NOP] y ] z
  else if (x =? 2) && (4 <=? y) then
    let dn := q =? 1 in let rep := 6 <=? y in
    pick D_NOP [D_LDx dn rep; D_CPx dn rep; D_INx dn rep; D_OUTx dn rep] z
  else D_NOP.

(** ** What depends on the chip *)
Record chip (T : Type) := mkChip {
  c_out0 : Z;                   (* the value OUT (C),0 writes *)
  c_iff2_bug : bool;            (* LD A,I/R reads P/V = 0 when an interrupt is being accepted *)
  c_wz : Z -> Z -> Z;           (* MEMPTR after LD (rp),A / LD (nn),A / OUT (n),A from A and the low address *)
  c_begin : T -> T;             (* the instruction starts *)
  c_touch : T -> T;             (* the instruction writes F *)
  c_q : T -> Z -> Z -> Z        (* source of bits 5, 3 of SCF/CCF from the state left by the previous
                                   instruction, A and F *)
}.
Arguments mkChip {T}. Arguments c_out0 {T}. Arguments c_iff2_bug {T}. Arguments c_wz {T}.
Arguments c_begin {T}. Arguments c_touch {T}. Arguments c_q {T}.
(** Zilog NMOS: remembers whether the last instruction wrote F; bits 5, 3 of SCF/CCF are A's if it did,
    those of A|F if not. *)
Definition nmos_wz (a lsb : Z) : Z := 256 * a + (lsb + 1) mod 256.
Definition q_scf (touched : bool) (a f : Z) : Z :=
  if touched then a else of_bits (fun i => bitn a i || bitn f i).
Definition nmos : chip bool := mkChip 0 true nmos_wz (fun _ => false) (fun _ => true) q_scf.
Definition bm1 : chip bool :=
  mkChip 0 false (fun _ lsb => (lsb + 1) mod 256) (fun _ => false) (fun _ => true) q_scf.
Definition cmos : chip unit := mkChip 255 false nmos_wz (fun u => u) (fun u => u) (fun _ a _ => a).

Section Isa.
Context {T WB RB : Type}.
Variable ch : chip T.
Notation state := (arch T).
Notation tree := (cyc WB RB (state * outcome WB RB)).

(** ** Registers *)
Definition w8 (x : Z) : Z := x mod 256.
Definition w16 (x : Z) : Z := x mod 65536.
Definition hi (x : Z) : Z := x / 256.
Definition lo (x : Z) : Z := x mod 256.
Definition word_of (h l : Z) : Z := 256 * h + l.
(** HL, or the index register a prefix selects. *)
Definition g_hl (px : option Prefix) (a : state) : Z :=
  match px with None => aHL a | Some Xdd => aIX a | Some Yfd => aIY a end.
Definition s_hl (px : option Prefix) (v : Z) (a : state) : state :=
  match px with None => wHL v a | Some Xdd => wIX v a | Some Yfd => wIY v a end.
Definition g_r (px : option Prefix) (g : Reg8) (a : state) : Z :=
  match g with
  | A => aA a | B => hi (aBC a) | C => lo (aBC a) | D => hi (aDE a) | E => lo (aDE a)
  | H => hi (g_hl px a) | L => lo (g_hl px a)
  end.
Definition s_r (px : option Prefix) (g : Reg8) (v : Z) (a : state) : state :=
  match g with
  | A => wA v a
  | B => wBC (word_of v (lo (aBC a))) a | C => wBC (word_of (hi (aBC a)) v) a
  | D => wDE (word_of v (lo (aDE a))) a | E => wDE (word_of (hi (aDE a)) v) a
  | H => s_hl px (word_of v (lo (g_hl px a))) a | L => s_hl px (word_of (hi (g_hl px a)) v) a
  end.
Definition g_rp (px : option Prefix) (g : Reg16) (a : state) : Z :=
  match g with BC => aBC a | DE => aDE a | HL => g_hl px a | SP => aSP a end.
Definition s_rp (px : option Prefix) (g : Reg16) (v : Z) (a : state) : state :=
  match g with BC => wBC v a | DE => wDE v a | HL => s_hl px v a | SP => wSP v a end.
Definition g_rp2 (px : option Prefix) (g : StkReg16) (a : state) : Z :=
  match g with Parse.SBC => aBC a | SDE => aDE a | SHL => g_hl px a | SAF => word_of (aA a) (aF a) end.
Definition s_rp2 (px : option Prefix) (g : StkReg16) (v : Z) (a : state) : state :=
  match g with Parse.SBC => wBC v a | SDE => wDE v a | SHL => s_hl px v a | SAF => wA (hi v) (wF (lo v) a) end.
(** An instruction that computes flags. *)
Definition s_f (f : Z) (a : state) : state := wF f (wQ (c_touch ch (aQ a)) a).
(** R counts in its low 7 bits. *)
Definition inc_R (a : state) : state := wR (128 * (aR a / 128) + (aR a mod 128 + 1) mod 128) a.
Definition IR (a : state) : Z := word_of (aI a) (aR a).
(** Index plus signed displacement. *)
Definition disp (base d : Z) : Z := w16 (base + signed8 d).

(** ** Sequences of cycles *)
Definition done (a : state) : tree := SRet (a, ONext).
Definition rd16 (ad : Z) (k : Z -> tree) : tree :=
  SRd ad (fun l => SRd (w16 (ad + 1)) (fun h => k (word_of h l))).
Definition imm8 (a : state) (k : Z -> state -> tree) : tree :=
  SRd (aPC a) (fun n => k n (wPC (w16 (aPC a + 1)) a)).
(** [n] extra T-states at the address of the immediate byte just read. *)
Definition imm8x (n : Z) (a : state) (k : Z -> state -> tree) : tree :=
  SRd (aPC a) (fun v => SX (aPC a) n (k v (wPC (w16 (aPC a + 1)) a))).
Definition imm16 (a : state) (k : Z -> state -> tree) : tree :=
  rd16 (aPC a) (fun nn => k nn (wPC (w16 (aPC a + 2)) a)).
Definition push (v : Z) (a : state) (k : state -> tree) : tree :=
  SWr (w16 (aSP a - 1)) (hi v) (SWr (w16 (aSP a - 2)) (lo v) (k (wSP (w16 (aSP a - 2)) a))).
Definition pop (a : state) (k : Z -> state -> tree) : tree :=
  rd16 (aSP a) (fun v => k v (wSP (w16 (aSP a + 2)) a)).
(** The address of the (HL) operand, or of (IX+d)/(IY+d) with the displacement read from the program. *)
Definition ea (px : option Prefix) (a : state) (k : Z -> state -> tree) : tree :=
  match px with
  | None => k (aHL a) a
  | Some _ => imm8x 5 a (fun d a => let ad := disp (g_hl px a) d in k ad (wWZ ad a))
  end.
Definition fetch (a : state) (k : Z -> state -> tree) : tree :=
  let a := inc_R a in
  SM1 (aPC a) (IR a) (fun c => k c (wPC (w16 (aPC a + 1)) a)).
Definition jump (ad : Z) (a : state) : state := wPC ad (wWZ ad a).

(** ** Operations *)
Definition alu (o : Ops8) (v : Z) (a : state) : state :=
  let x := aA a in let cy := Cf (aF a) in
  let r := match o with
           | ADD => s_add x v false | ADC => s_add x v cy | SUB => s_sub x v false | SBC8 => s_sub x v cy
           | AND => s_and x v | XOR => s_xor x v | OR => s_or x v | CP => (x, s_cp x v)
           end in
  wA (fst r) (s_f (snd r) a).
Definition acc (o : accop) (a : state) : state :=
  let x := aA a in let f := aF a in
  let r := match o with
           | O_RLCA => s_rlca x f | O_RRCA => s_rrca x f | O_RLA => s_rla x f | O_RRA => s_rra x f
           | O_DAA => s_daa x f | O_CPL => s_cpl x f end in
  wA (fst r) (s_f (snd r) a).
Definition rot (r : Rot) (v f : Z) : Z * Z :=
  match r with
  | RLC => s_rlc v | RRC => s_rrc v | RL => s_rl v f | RR => s_rr v f
  | SLA => s_sla v | SRA => s_sra v | SLL => s_sll v | SRL => s_srl v
  end.
Definition holds (c : Condition) (f : Z) : bool :=
  match c with
  | NZ => negb (Zf f) | CZ => Zf f | NC => negb (Cf f) | CC => Cf f
  | PO => negb (Pf f) | PE => Pf f | CP_ => negb (Sf f) | CM => Sf f
  end.
(** A CB operation on value [v]; [xy] supplies bits 5, 3 of BIT.  New value (if one is stored) and state. *)
Definition cb (o : cbop) (v xy : Z) (a : state) : option Z * state :=
  match o with
  | C_Rot r => let x := rot r v (aF a) in (Some (fst x), s_f (snd x) a)
  | C_Bit n => (None, s_f (s_bit n v xy (aF a)) a)
  | C_Res n => (Some (s_res n v), a)
  | C_Set n => (Some (s_set n v), a)
  end.
Definition cb_reg (o : cbop) (g : Reg8) (a : state) : state :=
  let v := g_r None g a in
  match cb o v v a with (Some x, a) => s_r None g x a | (None, a) => a end.
(** On memory, optionally (DDCB) also storing to a register. *)
Definition cb_mem (o : cbop) (ad : Z) (g : option Reg8) (a : state) : tree :=
  SRd ad (fun v => SX ad 1
    (match cb o v (hi (aWZ a)) a with
     | (Some x, a) => SWr ad x (done (match g with Some g => s_r None g x a | None => a end))
     | (None, a) => done a
     end)).
Definition dir (dn : bool) : Z := if dn then -1 else 1.
(** The repeated form of a block instruction: back to its first byte. *)
Definition again (a : state) : state := wPC (w16 (aPC a - 2)) a.
Definition out (p v : Z) (a : state) : tree :=
  SOut p v (fun b => SRet (a, match b with Some w => OOut w | None => ONext end)).

Definition ed_step (i : edinstr) (a : state) : tree :=
  match i with
  | D_NOP => done a
  | D_NEG => let r := s_neg (aA a) in done (wA (fst r) (s_f (snd r) a))
  | D_IM m => done (wIM m a)
  | D_RETN => pop a (fun ad a => done (jump ad (wIFF1 (aIFF2 a) a)))
  | D_RETI => SReti (aPC a) (fun b => pop a (fun ad a =>
                SRet (jump ad (wIFF1 (aIFF2 a) a), match b with Some r => OReti r | None => ONext end)))
  | D_RLD => SRd (aHL a) (fun v => SX (aHL a) 4 (let r := s_rld (aA a) v (aF a) in
               SWr (aHL a) (snd (fst r)) (done (wWZ (w16 (aHL a + 1)) (wA (fst (fst r)) (s_f (snd r) a))))))
  | D_RRD => SRd (aHL a) (fun v => SX (aHL a) 4 (let r := s_rrd (aA a) v (aF a) in
               SWr (aHL a) (snd (fst r)) (done (wWZ (w16 (aHL a + 1)) (wA (fst (fst r)) (s_f (snd r) a))))))
  | D_LD_A_I | D_LD_A_R =>
      let v := match i with D_LD_A_I => aI a | _ => aR a end in
      let fin pv := done (wA v (s_f (s_ld_a_ir v pv (aF a)) a)) in
      SX (IR a) 1 (if aIFF2 a && c_iff2_bug ch && aIFF1 a then SIrq (fun irq => fin (negb irq)) else fin (aIFF2 a))
  | D_LD_I_A => SX (IR a) 1 (done (wI (aA a) a))
  | D_LD_R_A => SX (IR a) 1 (done (wR (aA a) a))
  | D_LD_rp_mem g => imm16 a (fun ad a => rd16 ad (fun v => done (wWZ (w16 (ad + 1)) (s_rp None g v a))))
  | D_LD_mem_rp g => imm16 a (fun ad a =>
      SWr ad (lo (g_rp None g a)) (SWr (w16 (ad + 1)) (hi (g_rp None g a)) (done (wWZ (w16 (ad + 1)) a))))
  | D_ADC16 g => SX (IR a) 7 (let r := s_adc16 (aHL a) (g_rp None g a) (Cf (aF a)) in
                   done (wWZ (w16 (aHL a + 1)) (wHL (fst r) (s_f (snd r) a))))
  | D_SBC16 g => SX (IR a) 7 (let r := s_sbc16 (aHL a) (g_rp None g a) (Cf (aF a)) in
                   done (wWZ (w16 (aHL a + 1)) (wHL (fst r) (s_f (snd r) a))))
  | D_IN g => SIn (aBC a) (fun v =>
      let a := wWZ (w16 (aBC a + 1)) (s_f (s_in v (aF a)) a) in
      done (match g with Some g => s_r None g v a | None => a end))
  | D_OUT g => out (aBC a) (match g with Some g => g_r None g a | None => c_out0 ch end)
                   (wWZ (w16 (aBC a + 1)) a)
  | D_LDx dn rep =>
      let src := aHL a in let dst := aDE a in let n := w16 (aBC a - 1) in
      SRd src (fun v => SWr dst v (SX dst 2
        (let a := wHL (w16 (src + dir dn)) (wDE (w16 (dst + dir dn)) (wBC n
                    (s_f (s_ldx (aA a) v (n =? 0) (aF a)) a))) in
         if rep && negb (n =? 0) then SX dst 5 (done (wWZ (w16 (aPC a - 1)) (again a))) else done a)))
  | D_CPx dn rep =>
      let src := aHL a in let n := w16 (aBC a - 1) in
      SRd src (fun v => SX src 5
        (let stop := (n =? 0) || (aA a =? v) in
         let a := wHL (w16 (src + dir dn)) (wBC n (s_f (s_cpx (aA a) v (n =? 0) (aF a)) a)) in
         if rep && negb stop then SX src 5 (done (wWZ (w16 (aPC a - 1)) (again a)))
         else done (wWZ (w16 (aWZ a + dir dn)) a)))
  | D_INx dn rep =>
      let port := aBC a in let dst := aHL a in let n := w8 (hi port - 1) in
      SX (IR a) 1 (SIn port (fun v => SWr dst v
        (let a := wHL (w16 (dst + dir dn)) (wBC (word_of n (lo port)) (wWZ (w16 (port + dir dn))
                    (s_f (s_iox v n (w8 (lo port + dir dn))) a))) in
         if rep && negb (n =? 0) then SX dst 5 (done (again a)) else done a)))
  | D_OUTx dn rep =>
      let src := aHL a in let n := w8 (hi (aBC a) - 1) in let port := word_of n (lo (aBC a)) in
      SX (IR a) 1 (SRd src (fun v => SOut port v (fun b =>
        (let o := match b with Some w => OOut w | None => ONext end in
         let a := wHL (w16 (src + dir dn)) (wBC port (wWZ (w16 (port + dir dn))
                    (s_f (s_iox v n (lo (w16 (src + dir dn)))) a))) in
         if rep && negb (n =? 0) then SX port 5 (SRet (again a, o)) else SRet (a, o)))))
  end.

(** The instruction [i] under prefix [px]; [q]: what the previous instruction left in the Q state. *)
Definition step (px : option Prefix) (i : instr) (q : T) (a : state) : tree :=
  match i with
  | I_NOP => done a
  | I_HALT => SRet (wHALT true (wPC (w16 (aPC a - 1)) a), OHalt)
  | I_DI => done (wIFF1 false (wIFF2 false a))
  | I_EI => SRet (wEI true (wIFF1 true (wIFF2 true a)), OEI)
  | I_EX_AF => done (wAF' (word_of (aA a) (aF a)) (wA (hi (aAF' a)) (wF (lo (aAF' a)) a)))
  | I_EX_DE_HL => done (wDE (aHL a) (wHL (aDE a) a))
  | I_EXX => done (wBC (aBC' a) (wDE (aDE' a) (wHL (aHL' a) (wBC' (aBC a) (wDE' (aDE a) (wHL' (aHL a) a))))))
  | I_EX_SP =>
      let s := aSP a in let s1 := w16 (s + 1) in let v := g_hl px a in
      rd16 s (fun x => SX s1 1 (SWr s1 (hi v) (SWr s (lo v) (SX s 2 (done (s_hl px x (wWZ x a)))))))
  | I_LD_rr d s => done (s_r px d (g_r px s a) a)
  | I_LD_rm d => ea px a (fun ad a => SRd ad (fun v => done (s_r None d v a)))
  | I_LD_mr s => ea px a (fun ad a => SWr ad (g_r None s a) (done a))
  | I_LD_rn d => imm8 a (fun n a => done (s_r px d n a))
  | I_LD_mn =>
      match px with
      | None => imm8 a (fun n a => SWr (aHL a) n (done a))
      | Some _ => imm8 a (fun d a => imm8x 2 a (fun n a =>
          let ad := disp (g_hl px a) d in SWr ad n (done (wWZ ad a))))
      end
  | I_LD_A_rp g => let ad := g_rp None g a in SRd ad (fun v => done (wA v (wWZ (w16 (ad + 1)) a)))
  | I_LD_rp_A g => let ad := g_rp None g a in SWr ad (aA a) (done (wWZ (c_wz ch (aA a) (lo ad)) a))
  | I_LD_A_nn => imm16 a (fun ad a => SRd ad (fun v => done (wA v (wWZ (w16 (ad + 1)) a))))
  | I_LD_nn_A => imm16 a (fun ad a => SWr ad (aA a) (done (wWZ (c_wz ch (aA a) (lo ad)) a)))
  | I_LD_rp_nn g => imm16 a (fun nn a => done (s_rp px g nn a))
  | I_LD_HL_mem => imm16 a (fun ad a => rd16 ad (fun v => done (wWZ (w16 (ad + 1)) (s_hl px v a))))
  | I_LD_mem_HL => imm16 a (fun ad a =>
      SWr ad (lo (g_hl px a)) (SWr (w16 (ad + 1)) (hi (g_hl px a)) (done (wWZ (w16 (ad + 1)) a))))
  | I_LD_SP_HL => SX (IR a) 2 (done (wSP (g_hl px a) a))
  | I_PUSH g => SX (IR a) 1 (push (g_rp2 px g a) a done)
  | I_POP g => pop a (fun v a => done (s_rp2 px g v a))
  | I_ALU_r o s => done (alu o (g_r px s a) a)
  | I_ALU_m o => ea px a (fun ad a => SRd ad (fun v => done (alu o v a)))
  | I_ALU_n o => imm8 a (fun n a => done (alu o n a))
  | I_INC8 (Some g) => let r := s_inc (g_r px g a) (aF a) in done (s_r px g (fst r) (s_f (snd r) a))
  | I_DEC8 (Some g) => let r := s_dec (g_r px g a) (aF a) in done (s_r px g (fst r) (s_f (snd r) a))
  | I_INC8 None => ea px a (fun ad a => SRd ad (fun v => SX ad 1
      (let r := s_inc v (aF a) in SWr ad (fst r) (done (s_f (snd r) a)))))
  | I_DEC8 None => ea px a (fun ad a => SRd ad (fun v => SX ad 1
      (let r := s_dec v (aF a) in SWr ad (fst r) (done (s_f (snd r) a)))))
  | I_INC16 g => SX (IR a) 2 (done (s_rp px g (w16 (g_rp px g a + 1)) a))
  | I_DEC16 g => SX (IR a) 2 (done (s_rp px g (w16 (g_rp px g a - 1)) a))
  | I_ADD16 g =>
      let v := g_hl px a in
      SX (IR a) 7 (let r := s_add16 v (g_rp px g a) (aF a) in
        done (wWZ (w16 (v + 1)) (s_hl px (fst r) (s_f (snd r) a))))
  | I_ACC o => done (acc o a)
  | I_SCF => done (s_f (s_scf (c_q ch q (aA a) (aF a)) (aF a)) a)
  | I_CCF => done (s_f (s_ccf (c_q ch q (aA a) (aF a)) (aF a)) a)
  | I_JP => imm16 a (fun ad a => done (jump ad a))
  | I_JPcc c => imm16 a (fun ad a => done (if holds c (aF a) then jump ad a else wWZ ad a))
  | I_JP_HL => done (wPC (g_hl px a) a)
  | I_JR => imm8x 5 a (fun e a => done (jump (disp (aPC a) e) a))
  | I_JRcc c =>
      if holds c (aF a) then imm8x 5 a (fun e a => done (jump (disp (aPC a) e) a))
      else SSkip (aPC a) (done (wPC (w16 (aPC a + 1)) a))
  | I_DJNZ =>
      let n := w8 (hi (aBC a) - 1) in let b := word_of n (lo (aBC a)) in
      SX (IR a) 1
        (if n =? 0 then SSkip (aPC a) (done (wBC b (wPC (w16 (aPC a + 1)) a)))
         else imm8x 5 a (fun e a => done (wBC b (jump (disp (aPC a) e) a))))
  | I_CALL => imm16 a (fun ad a => SX (w16 (aPC a - 1)) 1 (push (aPC a) a (fun a => done (jump ad a))))
  | I_CALLcc c => imm16 a (fun ad a =>
      if holds c (aF a) then SX (w16 (aPC a - 1)) 1 (push (aPC a) a (fun a => done (jump ad a)))
      else done (wWZ ad a))
  | I_RET => pop a (fun ad a => done (jump ad a))
  | I_RETcc c => SX (IR a) 1 (if holds c (aF a) then pop a (fun ad a => done (jump ad a)) else done a)
  | I_RST ad => SX (IR a) 1 (push (aPC a) a (fun a => done (jump ad a)))
  | I_IN_A => imm8 a (fun n a =>
      let p := word_of (aA a) n in SIn p (fun v => done (wA v (wWZ (w16 (p + 1)) a))))
  | I_OUT_A => imm8 a (fun n a => out (word_of (aA a) n) (aA a) (wWZ (c_wz ch (aA a) n) a))
  | I_CB =>
      match px with
      | None => fetch a (fun c a =>
          match cb_decode c with
          | (o, Some g) => done (cb_reg o g a)
          | (o, None) => cb_mem o (aHL a) None a
          end)
      | Some _ => imm8 a (fun d a => imm8x 2 a (fun c a =>
          let ad := disp (g_hl px a) d in
          cb_mem (fst (cb_decode c)) ad (snd (cb_decode c)) (wWZ ad a)))
      end
  | I_ED => fetch a (fun c a => ed_step (ed_decode c) a)
  | I_PFX p => done (wPX (Some p) a)
  end.

(** Executing op-code [c], already fetched. *)
Definition exec_op (c : Z) (a : state) : tree :=
  step (aPX a) (decode c) (aQ a) (wPX None (wQ (c_begin ch (aQ a)) a)).
(** ... as a whole instruction: HALT and the delay after EI end. *)
Definition exec (c : Z) (a : state) : tree := exec_op c (wEI false (wHALT false a)).

(** ** Interrupts *)
(** The address after the HALT instruction when halted. *)
Definition resume (a : state) : state := if aHALT a then wPC (w16 (aPC a + 1)) (wHALT false a) else a.
Definition accept_int (a : state) : tree :=
  let a := resume (inc_R (wIFF1 false (wIFF2 false a))) in
  SAck (aPC a) (fun v =>
    let b := wEI false (wPX None (wQ (c_begin ch (aQ a)) a)) in
    match aIM a with
    | Mode0 => exec v a
    | Mode1 => SX (IR a) 1 (push (aPC b) b (fun b => done (jump 0x38 b)))
    | Mode2 => SX (IR a) 1 (push (aPC b) b (fun b => rd16 (word_of (aI b) v) (fun ad => done (jump ad b))))
    end).
Definition accept_nmi (a : state) : tree :=
  let a := resume (inc_R (wIFF1 false (wEI false a))) in
  SIdleM1 (aPC a) (SX (IR a) 1 (push (aPC a) a (fun a => done (wPC 0x66 (wQ (c_begin ch (aQ a)) a))))).

(** May an interrupt be accepted now? *)
Definition nmi_enabled (a : state) : bool := negb (aEI a) && match aPX a with None => true | Some _ => false end.
Definition int_enabled (a : state) : bool := aIFF1 a && nmi_enabled a.

(** One step of the processor: an interrupt, an idle cycle in HALT, or an instruction. *)
Definition next (a : state) : tree :=
  let go := if aHALT a then SIdleM1 (aPC a) (done (inc_R a)) else fetch a exec in
  if int_enabled a then SIrq (fun irq => if irq then accept_int a else go) else go.
End Isa.

(** Does an instruction involve HL, H, L or (HL)?  Only then does a DD or FD prefix matter. *)
Definition hl_half (g : Reg8) : bool := match g with H | L => true | _ => false end.
Definition uses_hl (i : instr) : bool :=
  match i with
  | I_LD_rr d s => hl_half d || hl_half s
  | I_LD_rn g | I_ALU_r _ g | I_INC8 (Some g) | I_DEC8 (Some g) => hl_half g
  | I_LD_rm _ | I_LD_mr _ | I_LD_mn | I_ALU_m _ | I_INC8 None | I_DEC8 None | I_CB => true
  | I_LD_rp_nn g | I_INC16 g | I_DEC16 g => match g with HL => true | _ => false end
  | I_PUSH g | I_POP g => match g with SHL => true | _ => false end
  | I_ADD16 _ | I_LD_HL_mem | I_LD_mem_HL | I_LD_SP_HL | I_EX_SP | I_JP_HL => true
  | _ => false
  end.

(** ** Comparing a tree with what happened *)
Inductive bev (WB RB : Type) :=
| VOp (a ir v : Z) | VRd (a v : Z) | VWr (a v : Z)
| VIn (p v : Z) (w : option Z) | VOut (p v : Z) (b : option WB) (w : option Z)
| VIrq (b : bool) | VReti (a : Z) (b : option RB) | VAck (a v : Z) (w : option Z).
Arguments VOp {WB RB}. Arguments VRd {WB RB}. Arguments VWr {WB RB}. Arguments VIn {WB RB}.
Arguments VOut {WB RB}. Arguments VIrq {WB RB}. Arguments VReti {WB RB}. Arguments VAck {WB RB}.
(** Clock calls: what passes time. *)
Inductive tev := TM1 (a : Z) | TMreq (a : Z) | TX (a n : Z) | TIo (p : Z) | TWait (p n : Z) | TAck (a : Z).
Definition tstates (e : tev) : Z :=
  match e with TM1 _ => 4 | TMreq _ => 3 | TX _ n => n | TIo _ => 4 | TWait _ n => n | TAck _ => 6 end.

(** [accepts t bl cl x]: the bus events [bl] (with the data the devices supplied) and the clock events [cl]
    are exactly a run of [t], which ends with [x].  A device's wait states follow its cycle. *)
Definition waited {P : list tev -> Prop} (p : Z) (w : option Z) (cl : list tev) : Prop :=
  match w with
  | None => P cl
  | Some n => match cl with TWait p' n' :: cl => p' = p /\ n' = n /\ P cl | _ => False end
  end.
Fixpoint accepts {WB RB X} (t : cyc WB RB X) (bl : list (bev WB RB)) (cl : list tev) (x : X) : Prop :=
  match t with
  | SRet y => bl = [] /\ cl = [] /\ y = x
  | SM1 a i k => match bl, cl with
      | VOp a1 i1 v :: bl, TM1 a2 :: cl => a1 = a /\ i1 = i /\ a2 = a /\ accepts (k v) bl cl x
      | _, _ => False end
  | SIdleM1 a k => match cl with TM1 a2 :: cl => a2 = a /\ accepts k bl cl x | _ => False end
  | SRd a k => match bl, cl with
      | VRd a1 v :: bl, TMreq a2 :: cl => a1 = a /\ a2 = a /\ accepts (k v) bl cl x
      | _, _ => False end
  | SSkip a k => match cl with TMreq a2 :: cl => a2 = a /\ accepts k bl cl x | _ => False end
  | SWr a v k => match bl, cl with
      | VWr a1 v1 :: bl, TMreq a2 :: cl => a1 = a /\ v1 = v /\ a2 = a /\ accepts k bl cl x
      | _, _ => False end
  | SX a n k => match cl with TX a2 n2 :: cl => a2 = a /\ n2 = n /\ accepts k bl cl x | _ => False end
  | SIn p k => match bl, cl with
      | VIn p1 v w :: bl, TIo p2 :: cl =>
          p1 = p /\ p2 = p /\ waited (P := fun cl => accepts (k v) bl cl x) p w cl
      | _, _ => False end
  | SOut p v k => match bl, cl with
      | VOut p1 v1 b w :: bl, TIo p2 :: cl =>
          p1 = p /\ v1 = v /\ p2 = p /\ waited (P := fun cl => accepts (k b) bl cl x) p w cl
      | _, _ => False end
  | SIrq k => match bl with VIrq b :: bl => accepts (k b) bl cl x | _ => False end
  | SReti a k => match bl with VReti a1 b :: bl => a1 = a /\ accepts (k b) bl cl x | _ => False end
  | SAck a k => match bl, cl with
      | VAck a1 v w :: bl, TAck a2 :: cl =>
          a1 = a /\ a2 = a /\ waited (P := fun cl => accepts (k v) bl cl x) a w cl
      | _, _ => False end
  end.
