(** Model of [RegisterPair] as it is written, src/cpu/registers.rs:27-30, 76-204: an array of two bytes.  ([Base.v] and all
    of the CPU model take a pair to be one 16-bit number; [PropRegPair.v] is the justification.)  And of the struct [Z80]
    with such pairs, accessed through raw pointers to single bytes (internal.rs:256-285). *)
From Coq Require Import ZArith Bool List.
From Verif Require Import Base Parse Cpu.
Import ListNotations.
Open Scope Z_scope.

(* registers.rs:30: [RegisterPair([u8;2])] *)
Record rpair := RP { byte0 : Z; byte1 : Z }.

(** core: [u16::from_le_bytes], [u16::to_le_bytes], [i16::to_le_bytes]. *)
Definition from_le_bytes (p : rpair) : Z := byte0 p + 256 * byte1 p.
Definition to_le_bytes (v : Z) : rpair := RP (v mod 256) (v / 256).
Definition i16_to_le_bytes (v : Z) : rpair := to_le_bytes (u16 v).

(** A raw pointer into the array: the offset from its first byte. Reading or writing outside of it is undefined behaviour:
    [None]. *)
Definition deref (p : rpair) (off : Z) : option Z :=
  if off =? 0 then Some (byte0 p) else if off =? 1 then Some (byte1 p) else None.
Definition assign (p : rpair) (off v : Z) : option rpair :=
  if off =? 0 then Some (RP v (byte1 p)) else if off =? 1 then Some (RP (byte0 p) v) else None.

Definition ptr8hi : Z := 1.                                                     (* registers.rs:77-80 *)
Definition ptr8lo : Z := 0.                                                     (* registers.rs:82-85 *)
Definition rp_get16 (p : rpair) : Z := from_le_bytes p.                         (* registers.rs:87-90 *)
Definition rp_set16 (v : Z) (_ : rpair) : rpair := to_le_bytes v.               (* registers.rs:92-95 *)
Definition rp_get8hi (p : rpair) : Z := byte1 p.                                (* registers.rs:97-101 *)
Definition rp_get8lo (p : rpair) : Z := byte0 p.                                (* registers.rs:103-107 *)
Definition rp_set8hi (v : Z) (p : rpair) : rpair := RP (byte0 p) v.             (* registers.rs:109-113 *)
Definition rp_set8lo (v : Z) (p : rpair) : rpair := RP v (byte1 p).             (* registers.rs:115-119 *)
Definition rp_get (p : rpair) : Z * Z := (byte1 p, byte0 p).                    (* registers.rs:121-126 *)
Definition rp_set (hi lo : Z) (_ : rpair) : rpair := RP lo hi.                  (* registers.rs:128-131 *)
Definition rp_inc16 (p : rpair) : rpair := rp_set16 (u16 (rp_get16 p + 1)) p.   (* registers.rs:133-136 *)
Definition rp_add16 (v : Z) (p : rpair) : rpair := rp_set16 (u16 (rp_get16 p + v)) p.  (* registers.rs:138-141 *)
Definition rp_dec16 (p : rpair) : rpair := rp_set16 (u16 (rp_get16 p - 1)) p.   (* registers.rs:143-146 *)
(* registers.rs:148-154 *)
Definition rp_dec16_is_zero (p : rpair) : rpair * bool :=
  let v := u16 (rp_get16 p - 1) in (rp_set16 v p, v =? 0).
(* registers.rs:156-160; [op] returns (hi, lo) *)
Definition rp_op16 (op : Z -> Z * Z) (p : rpair) : rpair := let (vhi, vlo) := op (rp_get16 p) in rp_set vhi vlo p.
(* registers.rs:162-168, 170-176 *)
Definition rp_op_ptr (off : Z) (op : Z -> Z) (p : rpair) : option rpair :=
  match deref p off with Some v => assign p off (op v) | None => None end.
Definition rp_op8hi (op : Z -> Z) (p : rpair) : option rpair := rp_op_ptr ptr8hi op p.
Definition rp_op8lo (op : Z -> Z) (p : rpair) : option rpair := rp_op_ptr ptr8lo op p.
Definition rp_from_u16 (v : Z) : rpair := to_le_bytes v.                        (* registers.rs:180-184 *)
Definition rp_from_i16 (v : Z) : rpair := i16_to_le_bytes v.                    (* registers.rs:186-190 *)
Definition rp_from_array (b0 b1 : Z) : rpair := RP b0 b1.                       (* registers.rs:192-197 *)
Definition rp_from_tuple (t : Z * Z) : rpair := let (hi, lo) := t in RP lo hi.  (* registers.rs:199-204 *)

(** The methods changing a pair, as requests, with what they return. *)
Inductive rpop :=
| OSet16 (v : Z) | OSet8hi (v : Z) | OSet8lo (v : Z) | OSet (hi lo : Z) | OInc16 | OAdd16 (v : Z) | ODec16 | ODecZero
| OOp16 (op : Z -> Z * Z) | OOp8hi (op : Z -> Z) | OOp8lo (op : Z -> Z).
Definition rp_step (o : rpop) (p : rpair) : option (rpair * option bool) :=
  match o with
  | OSet16 v => Some (rp_set16 v p, None)
  | OSet8hi v => Some (rp_set8hi v p, None)
  | OSet8lo v => Some (rp_set8lo v p, None)
  | OSet h l => Some (rp_set h l p, None)
  | OInc16 => Some (rp_inc16 p, None)
  | OAdd16 v => Some (rp_add16 v p, None)
  | ODec16 => Some (rp_dec16 p, None)
  | ODecZero => let (p, z) := rp_dec16_is_zero p in Some (p, Some z)
  | OOp16 op => Some (rp_op16 op p, None)
  | OOp8hi op => option_map (fun p => (p, None)) (rp_op8hi op p)
  | OOp8lo op => option_map (fun p => (p, None)) (rp_op8lo op p)
  end.
Fixpoint rp_steps (l : list rpop) (p : rpair) : option (rpair * list (option bool)) :=
  match l with
  | [] => Some (p, [])
  | o :: l => match rp_step o p with
              | Some (p, x) => option_map (fun r => (fst r, x :: snd r)) (rp_steps l p)
              | None => None
              end
  end.

(** The struct [Z80] with byte pairs, z80.rs:51-70 (the fields that are not pairs are kept together in [zrest]). *)
Inductive pname := PAF | PAF' | PBC | PDE | PHL | PBC' | PDE' | PHL' | PIX | PIY | PPC | PSP | PMP | PIR.
Record zbytes (Q : Type) := ZB { zpair : pname -> rpair; zrest : cpu Q }.
Arguments ZB {Q}. Arguments zpair {Q}. Arguments zrest {Q}.
Definition peqb (a b : pname) : bool :=
  match a, b with
  | PAF, PAF | PAF', PAF' | PBC, PBC | PDE, PDE | PHL, PHL | PBC', PBC' | PDE', PDE' | PHL', PHL' | PIX, PIX | PIY, PIY
  | PPC, PPC | PSP, PSP | PMP, PMP | PIR, PIR => true
  | _, _ => false
  end.
Definition zput {Q} (n : pname) (p : rpair) (z : zbytes Q) : zbytes Q :=
  ZB (fun m => if peqb m n then p else zpair z m) (zrest z).
(* internal.rs:256-275: a pointer is a pair of the struct and an offset in it *)
Definition reg8_ptr (g : Reg8) (p : option Prefix) : pname * Z :=
  match g with
  | B => (PBC, ptr8hi) | C => (PBC, ptr8lo) | D => (PDE, ptr8hi) | E => (PDE, ptr8lo)
  | H => match p with None => (PHL, ptr8hi) | Some Xdd => (PIX, ptr8hi) | Some Yfd => (PIY, ptr8hi) end
  | L => match p with None => (PHL, ptr8lo) | Some Xdd => (PIX, ptr8lo) | Some Yfd => (PIY, ptr8lo) end
  | A => (PAF, ptr8hi)
  end.
(* z80.rs:309-314 [set_reg]: [unsafe { *self.reg8_ptr(dst, prefix) = val; }] *)
Definition z_set_reg {Q} (g : Reg8) (px : option Prefix) (v : Z) (z : zbytes Q) : option (zbytes Q) :=
  let (n, off) := reg8_ptr g px in option_map (fun p => zput n p z) (assign (zpair z n) off v).
(* internal.rs:277-285 [apply_reg8] *)
Definition z_apply_reg8 {Q} (g : Reg8) (px : option Prefix) (op : Z -> Z) (z : zbytes Q) : option (zbytes Q) :=
  let (n, off) := reg8_ptr g px in
  match deref (zpair z n) off with
  | Some v => option_map (fun p => zput n p z) (assign (zpair z n) off (op v))
  | None => None
  end.
(* z80.rs:288-307 [get_reg] *)
Definition z_get_reg {Q} (g : Reg8) (px : option Prefix) (z : zbytes Q) : Z :=
  match g with
  | B => rp_get8hi (zpair z PBC) | C => rp_get8lo (zpair z PBC) | D => rp_get8hi (zpair z PDE) | E => rp_get8lo (zpair z PDE)
  | H => match px with None => rp_get8hi (zpair z PHL) | Some Xdd => rp_get8hi (zpair z PIX) | Some Yfd => rp_get8hi (zpair z PIY) end
  | L => match px with None => rp_get8lo (zpair z PHL) | Some Xdd => rp_get8lo (zpair z PIX) | Some Yfd => rp_get8lo (zpair z PIY) end
  | A => rp_get8hi (zpair z PAF)
  end.
