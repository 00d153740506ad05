(** The memory of the example computer RAL 1243 (examples/ral1243/src/memory.rs).

    Arrays are functions of the index; where Rust checks an index the functions below do too.  [None] is a panic, or reading through
    a pointer to freed memory. *)
From Coq Require Import ZArith Bool List Lia.
From Verif Require Import Base.
Import ListNotations.
Open Scope Z_scope.

(* memory.rs:19-26 *)
Definition BANK2 : Z := 0x4000.
Definition BANK1 : Z := 0x2000.
Definition BANK0 : Z := 0.
Definition BANK_MASK : Z := 0x1FFF.
Definition BANK_SELECT : Z := 0xE000.
Definition ROMSIZE : Z := 0x2000.
Definition MAXRAMSIZE : Z := 0x10000 - BANK2.

Definition array := Z -> Z.
Definition aset (m : array) (i v : Z) : array := fun x => if x =? i then v else m x.
(** [Box<[u8; ROMSIZE]>] (memory.rs:28): an allocation has an identity. *)
Record rombox := mkRom { rb_id : Z; rb_data : array }.
(** What [bank1] may point to: the box [ram0], or the box with that identity. *)
Inductive bankptr := PRam0 | PBox (id : Z).
(* memory.rs:31-39; [ram1] with its length *)
Record ralmem := mkRalMem {
  rm_rom : array; rm_bank1 : option bankptr; rm_ram0 : array; rm_ram1 : array; rm_ram1_len : Z;
  rm_exroms : list rombox; rm_select : Z; rm_is_ram : bool }.
Definition set_bank1 b m := mkRalMem (rm_rom m) b (rm_ram0 m) (rm_ram1 m) (rm_ram1_len m) (rm_exroms m) (rm_select m) (rm_is_ram m).
Definition set_exroms e m := mkRalMem (rm_rom m) (rm_bank1 m) (rm_ram0 m) (rm_ram1 m) (rm_ram1_len m) e (rm_select m) (rm_is_ram m).
Definition set_select s m := mkRalMem (rm_rom m) (rm_bank1 m) (rm_ram0 m) (rm_ram1 m) (rm_ram1_len m) (rm_exroms m) s (rm_is_ram m).
Definition set_is_ram r m := mkRalMem (rm_rom m) (rm_bank1 m) (rm_ram0 m) (rm_ram1 m) (rm_ram1_len m) (rm_exroms m) (rm_select m) r.
Definition set_ram0 d m := mkRalMem (rm_rom m) (rm_bank1 m) d (rm_ram1 m) (rm_ram1_len m) (rm_exroms m) (rm_select m) (rm_is_ram m).
Definition set_ram1 d m := mkRalMem (rm_rom m) (rm_bank1 m) (rm_ram0 m) d (rm_ram1_len m) (rm_exroms m) (rm_select m) (rm_is_ram m).

(* memory.rs:73-78 make_rom: the rest of the box is 0xFF *)
Definition make_rom (rom_in : list Z) : option array :=
  if Z.of_nat (length rom_in) <=? ROMSIZE
  then Some (fun i => if i <? Z.of_nat (length rom_in) then nth (Z.to_nat i) rom_in 0 else 255) else None.
(* memory.rs:56-64 new *)
Definition mem_new (rom_in : list Z) (ramsizekilos : Z) : option ralmem :=
  match make_rom rom_in with
  | Some rom => if ramsizekilos * 1024 <=? MAXRAMSIZE
      then Some (mkRalMem rom None (fun _ => 0) (fun _ => 0) (ramsizekilos * 1024) [] 0 false) else None
  | None => None
  end.
(* memory.rs:66-71 *)
Definition eject_exroms (m : ralmem) : ralmem * list rombox :=
  let m := if rm_is_ram m then m else set_bank1 None m in
  (set_exroms [] m, rm_exroms m).
(* memory.rs:80-82; u8::max_value() as usize + 1 *)
Definition free_exrom_slots (m : ralmem) : Z := 256 - Z.of_nat (length (rm_exroms m)).
(* memory.rs:135-145 *)
Definition exrom_to_bank1 (m : ralmem) : ralmem :=
  let m := set_is_ram false m in
  match nth_error (rm_exroms m) (Z.to_nat (rm_select m)) with
  | Some bank => set_bank1 (Some (PBox (rb_id bank))) m
  | None => set_bank1 None m
  end.
(* memory.rs:99-108; the result counts the cartridges *)
Definition attach_exrom (exrom : rombox) (m : ralmem) : option (ralmem * Z) :=
  if free_exrom_slots m =? 0 then None
  else
    let m := set_exroms (rm_exroms m ++ [exrom]) m in
    let m := if rm_is_ram m then m else exrom_to_bank1 m in
    Some (m, Z.of_nat (length (rm_exroms m))).
(* memory.rs:85-95 attach_exroms *)
Fixpoint attach_all (exroms : list rombox) (m : ralmem) : option ralmem :=
  match exroms with
  | [] => Some m
  | x :: l => match attach_exrom x m with Some (m, _) => attach_all l m | None => None end
  end.
Definition attach_exroms (exroms : list rombox) (m : ralmem) : option (ralmem * Z) :=
  let n := Z.min (Z.of_nat (length exroms)) (free_exrom_slots m) in
  option_map (fun m => (m, n)) (attach_all (firstn (Z.to_nat n) exroms) m).

(* memory.rs:111-113; [addr & BANK_MASK] is below ROMSIZE *)
Definition read_rom (m : ralmem) (addr : Z) : Z := rm_rom m (Z.land addr BANK_MASK).
(** Reading through the pointer: the box must still be there. *)
Definition deref (m : ralmem) (p : bankptr) : option array :=
  match p with
  | PRam0 => Some (rm_ram0 m)
  | PBox id => option_map rb_data (find (fun x => rb_id x =? id) (rm_exroms m))
  end.
(* memory.rs:116-124 *)
Definition read_bank1 (m : ralmem) (addr : Z) : option Z :=
  match rm_bank1 m with
  | Some p => option_map (fun d => d (Z.land addr BANK_MASK)) (deref m p)
  | None => Some 255
  end.
(* memory.rs:127-132 *)
Definition read_ram1 (m : ralmem) (addr : Z) : Z :=
  let i := u16 (addr - BANK2) in if i <? rm_ram1_len m then rm_ram1 m i else 255.
(* memory.rs:149-163 MemoryControl *)
Definition read_ctrl (m : ralmem) : Z := rm_select m.
Definition write_ctrl (no : Z) (m : ralmem) : ralmem :=
  if rm_select m =? no then m
  else let m := set_select no m in if rm_is_ram m then m else exrom_to_bank1 m.
(* memory.rs:259-265 *)
Definition m_read_debug (m : ralmem) (addr : Z) : option Z :=
  let bank := Z.land addr BANK_SELECT in
  if bank =? BANK0 then Some (read_rom m addr)
  else if bank =? BANK1 then read_bank1 m addr
  else Some (read_ram1 m addr).
(* memory.rs:174-196 *)
Definition m_read_opcode (pc : Z) (m : ralmem) : option (ralmem * Z) :=
  let pcbank := Z.land pc BANK_SELECT in
  if pcbank =? BANK0 then
    let m := if rm_is_ram m then m else set_bank1 (Some PRam0) (set_is_ram true m) in
    Some (m, read_rom m pc)
  else
    let m := if rm_is_ram m then exrom_to_bank1 m else m in
    if pcbank =? BANK1 then option_map (fun v => (m, v)) (read_bank1 m pc)
    else Some (m, read_ram1 m pc).
(* memory.rs:199-201 *)
Definition m_read_mem (m : ralmem) (addr : Z) : option Z := m_read_debug m addr.
(** [read_unaligned16] (memory.rs:43-45): two bytes, little-endian. *)
Definition read_unaligned16 (d : array) (i : Z) : Z := d i + 256 * d (i + 1).
Definition from_le (l h : Z) : Z := l + 256 * h.
(* memory.rs:204-243 *)
Definition m_read_mem16 (m : ralmem) (addr : Z) : option Z :=
  let bank := Z.land addr BANK_SELECT in
  if bank =? BANK0 then
    if negb (addr =? BANK_MASK) then Some (read_unaligned16 (rm_rom m) addr)
    else option_map (fun h => from_le (read_rom m BANK_MASK) h) (read_bank1 m BANK1)
  else if bank =? BANK1 then
    if negb (addr =? Z.lor BANK1 BANK_MASK) then
      match rm_bank1 m with
      | Some p => option_map (fun d => read_unaligned16 d (Z.land addr BANK_MASK)) (deref m p)
      | None => Some 65535
      end
    else option_map (fun l => from_le l (read_ram1 m BANK2)) (read_bank1 m (Z.lor BANK1 BANK_MASK))
  else
    let offs := addr - BANK2 in
    if offs + 1 <? rm_ram1_len m then Some (read_unaligned16 (rm_ram1 m) offs)
    else Some (from_le (read_ram1 m addr) (if addr =? 65535 then read_rom m 0 else 255)).
(* memory.rs:246-256 *)
Definition m_write_mem (addr data : Z) (m : ralmem) : ralmem :=
  let bank := Z.land addr BANK_SELECT in
  if bank =? BANK0 then m
  else if bank =? BANK1 then
    if rm_is_ram m then set_ram0 (aset (rm_ram0 m) (Z.land addr BANK_MASK) data) m else m
  else
    let i := u16 (addr - BANK2) in
    if i <? rm_ram1_len m then set_ram1 (aset (rm_ram1 m) i data) m else m.

(** One call of a method; the answer of a method returning nothing is 0. *)
Inductive mop :=
| MFetch (pc : Z) | MRead (a : Z) | MRead16 (a : Z) | MWrite (a v : Z)
| MSelect (n : Z) | MSelected | MInsert (x : rombox) | MEject.
Definition mem_op (o : mop) (m : ralmem) : option (ralmem * Z) :=
  match o with
  | MFetch pc => m_read_opcode pc m
  | MRead a => option_map (fun v => (m, v)) (m_read_mem m a)
  | MRead16 a => option_map (fun v => (m, v)) (m_read_mem16 m a)
  | MWrite a v => Some (m_write_mem a v m, 0)
  | MSelect n => Some (write_ctrl n m, 0)
  | MSelected => Some (m, read_ctrl m)
  | MInsert x => attach_exrom x m
  | MEject => let (m, l) := eject_exroms m in Some (m, Z.of_nat (length l))
  end.
Fixpoint mem_run (l : list mop) (m : ralmem) : option (ralmem * list Z) :=
  match l with
  | [] => Some (m, [])
  | o :: l => match mem_op o m with
      | Some (m, v) => match mem_run l m with Some (m, r) => Some (m, v :: r) | None => None end
      | None => None
      end
  end.
