(** Vocabulary for the outside effects of a step: break requests and memory stores. *)
From Coq Require Import ZArith Bool List.
From Verif Require Import Base Parse Cpu Prog Trace Exec SpecAlu SpecState SpecIsa SpecCycles SpecStep.
Import ListNotations.
Open Scope Z_scope.

(** ** Break requests *)
(** What devices asked for during a step. *)
Definition requests {WB RB} (bl : list (bev WB RB)) : list (break_cause WB RB) :=
  flat_map (fun e => match e with VOut _ _ (Some w) _ => [BWriteIo w] | VReti _ (Some r) => [BReti r] | _ => [] end) bl.
(** The same devices, never asking for a break. *)
Definition mute {TS WB RB BS CK} (H : host TS WB RB BS CK) : host TS WB RB BS CK :=
  mkHost (h_is_past_limit H) (h_add_irq H) (h_add_no_mreq H) (h_add_m1 H) (h_add_mreq H) (h_add_io H) (h_add_wait H)
    (h_as_ts H) (h_read_io H) (fun b p v t => let (b', x) := h_write_io H b p v t in (b', (None, snd x)))
    (h_is_irq H) (h_irq_data H) (fun b a t => (fst (h_reti H b a t), None)) (h_read_mem H) (h_read_mem16 H)
    (h_read_opcode H) (h_write_mem H) (h_read_debug H).
Definition mute_result {WB RB} (r : option (break_cause WB RB)) : option (break_cause WB RB) :=
  match r with Some BHalt => Some BHalt | _ => None end.

(** ** Stores *)
(** Where an instruction stores: (BC), (DE), (HL), the operand word nn and the next byte, (HL) or (IX/IY+d),
    below the stack pointer, and on top of the stack. *)
Inductive loc := L_BC | L_DE | L_HL | L_nn | L_nn1 | L_m | L_push_hi | L_push_lo | L_top_hi | L_top_lo.
(** By first op-code byte. *)
Definition main_stores (c : Z) : list loc :=
  if c =? 0x02 then [L_BC]
  else if c =? 0x12 then [L_DE]
  else if c =? 0x22 then [L_nn; L_nn1]
  else if c =? 0x32 then [L_nn]
  else if (0x34 <=? c) && (c <=? 0x36) then [L_m]
  else if (0x70 <=? c) && (c <=? 0x77) && negb (c =? 0x76) then [L_m]
  else if c =? 0xE3 then [L_top_hi; L_top_lo]
  else if existsb (Z.eqb c) [0xC5; 0xD5; 0xE5; 0xF5; 0xCD] || ((c / 64 =? 3) && ((c mod 8 =? 4) || (c mod 8 =? 7)))
  then [L_push_hi; L_push_lo]
  else [].
(** By op-code byte after 0xCB, as long as it operates on memory. *)
Definition cb_stores (c : Z) : list loc := if c / 64 =? 1 then [] else [L_m].
(** By op-code byte after 0xED. *)
Definition ed_stores (c : Z) : list loc :=
  if existsb (Z.eqb c) [0x43; 0x53; 0x63; 0x73] then [L_nn; L_nn1]
  else if existsb (Z.eqb c) [0x67; 0x6F; 0xA2; 0xAA; 0xB2; 0xBA] then [L_HL]
  else if existsb (Z.eqb c) [0xA0; 0xA8; 0xB0; 0xB8] then [L_DE]
  else [].
(** CALL cc, condition in bits 5-3. *)
Definition call_not_taken (c f : Z) : bool := (c / 64 =? 3) && (c mod 8 =? 4) && negb (cond ((c / 8) mod 8) f).
Definition reads {WB RB} (bl : list (bev WB RB)) : list Z :=
  flat_map (fun e => match e with VRd _ v => [v] | _ => [] end) bl.
(** Op-code [c] has been fetched, [ops] and [rds]: further op-code bytes and the data read afterwards, operands first. *)
Definition instr_stores (c : Z) (px : option Prefix) (f : Z) (ops rds : list Z) : list loc :=
  if c =? 0xCB then
    match px with
    | None => if nth 0 ops 0 mod 8 =? 6 then cb_stores (nth 0 ops 0) else []
    | Some _ => cb_stores (nth 1 rds 0)
    end
  else if c =? 0xED then ed_stores (nth 0 ops 0)
  else if call_not_taken c f then [] else main_stores c.
Definition addr_of {Q} (c : cpu Q) (px : option Prefix) (rds : list Z) (l : loc) : Z :=
  let nn := 256 * nth 1 rds 0 + nth 0 rds 0 in
  match l with
  | L_BC => bc c | L_DE => de c | L_HL => hl c
  | L_nn => nn | L_nn1 => (nn + 1) mod 65536
  | L_m => match px with
           | None => hl c
           | Some Xdd => (ix c + signed8 (nth 0 rds 0)) mod 65536
           | Some Yfd => (iy c + signed8 (nth 0 rds 0)) mod 65536
           end
  | L_push_hi => (sp c - 1) mod 65536 | L_push_lo => (sp c - 2) mod 65536
  | L_top_hi => (sp c + 1) mod 65536 | L_top_lo => sp c
  end.
Definition stored_at {WB RB} (bl : list (bev WB RB)) : list Z := map fst (stores bl).
(** In a step of [execute_next], or when accepting an interrupt. *)
Definition step_stores {WB RB Q} (c : cpu Q) (bl : list (bev WB RB)) : list Z :=
  match bl with
  | VOp _ _ v :: r | VIrq _ :: VOp _ _ v :: r =>
      map (addr_of c (prefix c) (reads r)) (instr_stores v (prefix c) (get_flags c) (opcodes r) (reads r))
  | VAck _ v _ :: r | VIrq _ :: VAck _ v _ :: r =>
      match im c with
      | Mode0 => map (addr_of c (prefix c) (reads r)) (instr_stores v (prefix c) (get_flags c) (opcodes r) (reads r))
      | _ => map (addr_of c None []) [L_push_hi; L_push_lo]
      end
  | _ => []
  end.
(** HALT is executed in the step (0x76, also as the byte supplied by a device in mode 0). *)
Definition halts {WB RB Q} (c : cpu Q) (bl : list (bev WB RB)) : bool :=
  match bl with
  | VOp _ _ v :: _ | VIrq _ :: VOp _ _ v :: _ => v =? 0x76
  | VAck _ v _ :: _ | VIrq _ :: VAck _ v _ :: _ => match im c with Mode0 => v =? 0x76 | _ => false end
  | _ => false
  end.
(** The result of a step: what a device asked for; otherwise whether HALT was executed. *)
Definition break_of {WB RB} (bl : list (bev WB RB)) (hlt : bool) : option (break_cause WB RB) :=
  match requests bl with r :: _ => Some r | [] => if hlt then Some BHalt else None end.
(** ** Relative jumps (C40) *)
(** DJNZ with B = 1, JR NZ, JR Z, JR NC, JR C: the branch is not taken. *)
Definition not_taken (code f b : Z) : bool :=
  match code with
  | 0x10 => b =? 1
  | 0x20 => Zf f | 0x28 => negb (Zf f)
  | 0x30 => Cf f | 0x38 => negb (Cf f)
  | _ => false
  end.
(** Anything but an access to memory or a device ([ERdDebug]: the debugger's side-effect free view of memory). *)
Definition no_access {TS WB RB} (e : ev TS WB RB) : bool :=
  match e with
  | ERd _ _ _ | ERd16 _ _ _ | EWr _ _ _ | EIn _ _ _ _ | EOut _ _ _ _ _ | EOp _ _ _ _ | EIrqData _ _ _ _ | EReti _ _ _ => false
  | _ => true
  end.
