(** The CPU state: src/z80.rs:48-70 and the register API src/z80.rs:143-400, parameterised by a
    [Flavour] (src/z80/flavours.rs:20-53). *)
From Coq Require Import ZArith Bool List.
From Verif Require Import Base Flags Parse.
Import ListNotations.
Open Scope Z_scope.

(** The [Flavour] trait: flavours.rs:20-53.  Any implementation, not only the three in the crate.
    [serialize]/[from] items are not part of this record. *)
Record Flavour (Q : Type) := mkFlavour {
  constant_out_data : Z;                 (* CONSTANT_OUT_DATA *)
  accept_irq_early : bool;               (* ACCEPTING_INT_RESETS_IFF2_EARLY *)
  memptr_mix : Z -> Z -> Z * Z;          (* memptr_mix(msb, lsb) *)
  begin_instruction : Q -> Q;
  flags_modified : Q -> Q;
  get_q : Q -> Z -> Z -> Z;              (* get_q(&self, acc, flags) *)
  flavour_reset : Q -> Q
}.
Arguments constant_out_data {Q}.
Arguments accept_irq_early {Q}.
Arguments memptr_mix {Q}.
Arguments begin_instruction {Q}.
Arguments flags_modified {Q}.
Arguments get_q {Q}.
Arguments flavour_reset {Q}.

(** z80.rs:51-70.  [regs], [regs_alt], [index] are flattened. *)
Record cpu (Q : Type) := mkCpu {
  af : Z; af_alt : Z;
  bc : Z; de : Z; hl : Z;
  bc_alt : Z; de_alt : Z; hl_alt : Z;
  ix : Z; iy : Z;
  pc : Z; sp : Z; memptr : Z;
  last_ei : bool;
  ir : Z;
  im : InterruptMode;
  iff1 : bool; iff2 : bool;
  halt : bool;
  prefix : option Prefix;
  r : Z;
  flavour : Q
}.
Arguments mkCpu {Q}.
Arguments af {Q}. Arguments af_alt {Q}. Arguments bc {Q}. Arguments de {Q}. Arguments hl {Q}.
Arguments bc_alt {Q}. Arguments de_alt {Q}. Arguments hl_alt {Q}. Arguments ix {Q}. Arguments iy {Q}.
Arguments pc {Q}. Arguments sp {Q}. Arguments memptr {Q}. Arguments last_ei {Q}. Arguments ir {Q}.
Arguments im {Q}. Arguments iff1 {Q}. Arguments iff2 {Q}. Arguments halt {Q}. Arguments prefix {Q}.
Arguments r {Q}. Arguments flavour {Q}.

Section Api.
Context {Q : Type}.
Notation cpu := (cpu Q).

(** Field assignments. *)
Definition set_af v (c : cpu) : cpu := mkCpu v (af_alt c) (bc c) (de c) (hl c) (bc_alt c) (de_alt c) (hl_alt c) (ix c) (iy c) (pc c) (sp c) (memptr c) (last_ei c) (ir c) (im c) (iff1 c) (iff2 c) (halt c) (prefix c) (r c) (flavour c).
Definition set_af_alt v (c : cpu) : cpu := mkCpu (af c) v (bc c) (de c) (hl c) (bc_alt c) (de_alt c) (hl_alt c) (ix c) (iy c) (pc c) (sp c) (memptr c) (last_ei c) (ir c) (im c) (iff1 c) (iff2 c) (halt c) (prefix c) (r c) (flavour c).
Definition set_bc v (c : cpu) : cpu := mkCpu (af c) (af_alt c) v (de c) (hl c) (bc_alt c) (de_alt c) (hl_alt c) (ix c) (iy c) (pc c) (sp c) (memptr c) (last_ei c) (ir c) (im c) (iff1 c) (iff2 c) (halt c) (prefix c) (r c) (flavour c).
Definition set_de v (c : cpu) : cpu := mkCpu (af c) (af_alt c) (bc c) v (hl c) (bc_alt c) (de_alt c) (hl_alt c) (ix c) (iy c) (pc c) (sp c) (memptr c) (last_ei c) (ir c) (im c) (iff1 c) (iff2 c) (halt c) (prefix c) (r c) (flavour c).
Definition set_hl v (c : cpu) : cpu := mkCpu (af c) (af_alt c) (bc c) (de c) v (bc_alt c) (de_alt c) (hl_alt c) (ix c) (iy c) (pc c) (sp c) (memptr c) (last_ei c) (ir c) (im c) (iff1 c) (iff2 c) (halt c) (prefix c) (r c) (flavour c).
Definition set_ix v (c : cpu) : cpu := mkCpu (af c) (af_alt c) (bc c) (de c) (hl c) (bc_alt c) (de_alt c) (hl_alt c) v (iy c) (pc c) (sp c) (memptr c) (last_ei c) (ir c) (im c) (iff1 c) (iff2 c) (halt c) (prefix c) (r c) (flavour c).
Definition set_iy v (c : cpu) : cpu := mkCpu (af c) (af_alt c) (bc c) (de c) (hl c) (bc_alt c) (de_alt c) (hl_alt c) (ix c) v (pc c) (sp c) (memptr c) (last_ei c) (ir c) (im c) (iff1 c) (iff2 c) (halt c) (prefix c) (r c) (flavour c).
Definition set_pc v (c : cpu) : cpu := mkCpu (af c) (af_alt c) (bc c) (de c) (hl c) (bc_alt c) (de_alt c) (hl_alt c) (ix c) (iy c) v (sp c) (memptr c) (last_ei c) (ir c) (im c) (iff1 c) (iff2 c) (halt c) (prefix c) (r c) (flavour c).
Definition set_sp v (c : cpu) : cpu := mkCpu (af c) (af_alt c) (bc c) (de c) (hl c) (bc_alt c) (de_alt c) (hl_alt c) (ix c) (iy c) (pc c) v (memptr c) (last_ei c) (ir c) (im c) (iff1 c) (iff2 c) (halt c) (prefix c) (r c) (flavour c).
Definition set_memptr v (c : cpu) : cpu := mkCpu (af c) (af_alt c) (bc c) (de c) (hl c) (bc_alt c) (de_alt c) (hl_alt c) (ix c) (iy c) (pc c) (sp c) v (last_ei c) (ir c) (im c) (iff1 c) (iff2 c) (halt c) (prefix c) (r c) (flavour c).
Definition set_last_ei v (c : cpu) : cpu := mkCpu (af c) (af_alt c) (bc c) (de c) (hl c) (bc_alt c) (de_alt c) (hl_alt c) (ix c) (iy c) (pc c) (sp c) (memptr c) v (ir c) (im c) (iff1 c) (iff2 c) (halt c) (prefix c) (r c) (flavour c).
Definition set_ir v (c : cpu) : cpu := mkCpu (af c) (af_alt c) (bc c) (de c) (hl c) (bc_alt c) (de_alt c) (hl_alt c) (ix c) (iy c) (pc c) (sp c) (memptr c) (last_ei c) v (im c) (iff1 c) (iff2 c) (halt c) (prefix c) (r c) (flavour c).
Definition set_im v (c : cpu) : cpu := mkCpu (af c) (af_alt c) (bc c) (de c) (hl c) (bc_alt c) (de_alt c) (hl_alt c) (ix c) (iy c) (pc c) (sp c) (memptr c) (last_ei c) (ir c) v (iff1 c) (iff2 c) (halt c) (prefix c) (r c) (flavour c).
(* z80.rs:252-256 *)
Definition set_iffs v1 v2 (c : cpu) : cpu := mkCpu (af c) (af_alt c) (bc c) (de c) (hl c) (bc_alt c) (de_alt c) (hl_alt c) (ix c) (iy c) (pc c) (sp c) (memptr c) (last_ei c) (ir c) (im c) v1 v2 (halt c) (prefix c) (r c) (flavour c).
Definition set_halt v (c : cpu) : cpu := mkCpu (af c) (af_alt c) (bc c) (de c) (hl c) (bc_alt c) (de_alt c) (hl_alt c) (ix c) (iy c) (pc c) (sp c) (memptr c) (last_ei c) (ir c) (im c) (iff1 c) (iff2 c) v (prefix c) (r c) (flavour c).
Definition set_prefix v (c : cpu) : cpu := mkCpu (af c) (af_alt c) (bc c) (de c) (hl c) (bc_alt c) (de_alt c) (hl_alt c) (ix c) (iy c) (pc c) (sp c) (memptr c) (last_ei c) (ir c) (im c) (iff1 c) (iff2 c) (halt c) v (r c) (flavour c).
Definition set_rfield v (c : cpu) : cpu := mkCpu (af c) (af_alt c) (bc c) (de c) (hl c) (bc_alt c) (de_alt c) (hl_alt c) (ix c) (iy c) (pc c) (sp c) (memptr c) (last_ei c) (ir c) (im c) (iff1 c) (iff2 c) (halt c) (prefix c) v (flavour c).
Definition set_flavour v (c : cpu) : cpu := mkCpu (af c) (af_alt c) (bc c) (de c) (hl c) (bc_alt c) (de_alt c) (hl_alt c) (ix c) (iy c) (pc c) (sp c) (memptr c) (last_ei c) (ir c) (im c) (iff1 c) (iff2 c) (halt c) (prefix c) (r c) v.

(* z80.rs:72-78 *)
Definition is_int_allowed (p : option Prefix) (last : bool) : bool :=
  match p with None => negb last | Some _ => false end.

(* z80.rs:144-167 *)
Definition reset (FL : Flavour Q) (c : cpu) : cpu :=
  mkCpu 0xFFFF 0xFFFF 0 0 0 0 0 0 0 0 0 0xFFFF 0 false 0 Mode0 false false false None 0
        (flavour_reset FL (flavour c)).

(* z80.rs:169-187 *)
Definition get_pc (c : cpu) : Z := pc c.
Definition get_sp (c : cpu) : Z := sp c.
(* z80.rs:189-197 *)
Definition get_acc (c : cpu) : Z := hi8 (af c).
Definition set_acc (v : Z) (c : cpu) : cpu := set_af (set8hi (af c) v) c.
(* z80.rs:199-207 *)
Definition get_flags (c : cpu) : Z := lo8 (af c).
Definition set_flags (f : Z) (c : cpu) : cpu := set_af (set8lo (af c) f) c.
(* z80.rs:209-212 *)
Definition inc_r (c : cpu) : cpu := set_rfield (u8 (r c + 1)) c.
(* z80.rs:214-217; [delta as u8] truncates the i32 *)
Definition add_r (delta : Z) (c : cpu) : cpu := set_rfield (u8 (r c + u8 delta)) c.
(* z80.rs:219-223 *)
Definition get_r (c : cpu) : Z := Z.lor (Z.land (lo8 (ir c)) 0x80) (Z.land (r c) 0x7F).
(* z80.rs:225-229 *)
Definition set_r (v : Z) (c : cpu) : cpu := set_ir (set8lo (ir c) v) (set_rfield v c).
(* z80.rs:231-239 *)
Definition get_i (c : cpu) : Z := hi8 (ir c).
Definition set_i (v : Z) (c : cpu) : cpu := set_ir (set8hi (ir c) v) c.
(* z80.rs:241-245 *)
Definition get_ir (c : cpu) : Z := Z.lor (Z.land (ir c) 0xFF80) (Z.land (r c) 0x7F).
(* z80.rs:258-261 *)
Definition do_halt (c : cpu) : cpu := set_halt true c.
(* z80.rs:278-281 *)
Definition ex_af_af (c : cpu) : cpu := set_af_alt (af c) (set_af (af_alt c) c).
(* z80.rs:283-286 *)
Definition exx (c : cpu) : cpu := mkCpu (af c) (af_alt c) (bc_alt c) (de_alt c) (hl_alt c) (bc c) (de c) (hl c) (ix c) (iy c) (pc c) (sp c) (memptr c) (last_ei c) (ir c) (im c) (iff1 c) (iff2 c) (halt c) (prefix c) (r c) (flavour c).
(* z80.rs:288-307 *)
Definition get_reg (g : Reg8) (p : option Prefix) (c : cpu) : Z :=
  match g with
  | B => hi8 (bc c) | C => lo8 (bc c) | D => hi8 (de c) | E => lo8 (de c)
  | H => match p with None => hi8 (hl c) | Some Xdd => hi8 (ix c) | Some Yfd => hi8 (iy c) end
  | L => match p with None => lo8 (hl c) | Some Xdd => lo8 (ix c) | Some Yfd => lo8 (iy c) end
  | A => hi8 (af c)
  end.
(* z80.rs:309-314 through internal.rs:257-275 [reg8_ptr]: assignment through the returned pointer *)
Definition set_reg (g : Reg8) (p : option Prefix) (v : Z) (c : cpu) : cpu :=
  match g with
  | B => set_bc (set8hi (bc c) v) c | C => set_bc (set8lo (bc c) v) c
  | D => set_de (set8hi (de c) v) c | E => set_de (set8lo (de c) v) c
  | H => match p with None => set_hl (set8hi (hl c) v) c
                    | Some Xdd => set_ix (set8hi (ix c) v) c | Some Yfd => set_iy (set8hi (iy c) v) c end
  | L => match p with None => set_hl (set8lo (hl c) v) c
                    | Some Xdd => set_ix (set8lo (ix c) v) c | Some Yfd => set_iy (set8lo (iy c) v) c end
  | A => set_af (set8hi (af c) v) c
  end.
(* internal.rs:298-305 stkreg16_ref, z80.rs:326-329 get_reg16 *)
Definition get_reg16 (s : StkReg16) (c : cpu) : Z :=
  match s with SBC => bc c | SDE => de c | SHL => hl c | SAF => af c end.
(* internal.rs:307-315 stkreg16_alt_ref, z80.rs:331-334 get_alt_reg16 *)
Definition get_alt_reg16 (s : StkReg16) (c : cpu) : Z :=
  match s with SBC => bc_alt c | SDE => de_alt c | SHL => hl_alt c | SAF => af_alt c end.
(* z80.rs:316-324 get_reg2, get_alt_reg2: [RegisterPair::get] = (hi, lo) *)
Definition get_reg2 (s : StkReg16) (c : cpu) : Z * Z := (hi8 (get_reg16 s c), lo8 (get_reg16 s c)).
Definition get_alt_reg2 (s : StkReg16) (c : cpu) : Z * Z := (hi8 (get_alt_reg16 s c), lo8 (get_alt_reg16 s c)).
(* internal.rs:345-353 stkreg16_mut, z80.rs:341-344 set_reg16 *)
Definition set_reg16 (s : StkReg16) (v : Z) (c : cpu) : cpu :=
  match s with SBC => set_bc v c | SDE => set_de v c | SHL => set_hl v c | SAF => set_af v c end.
(* z80.rs:336-339 set_reg2 *)
Definition set_reg2 (s : StkReg16) (h l : Z) (c : cpu) : cpu := set_reg16 s (mk16 h l) c.
(* internal.rs:327-333, z80.rs:351-354 get_index16 *)
Definition get_index16 (p : Prefix) (c : cpu) : Z := match p with Xdd => ix c | Yfd => iy c end.
Definition get_index2 (p : Prefix) (c : cpu) : Z * Z := (hi8 (get_index16 p c), lo8 (get_index16 p c)).
(* internal.rs:355-361, z80.rs:361-364 set_index16 *)
Definition set_index16 (p : Prefix) (v : Z) (c : cpu) : cpu :=
  match p with Xdd => set_ix v c | Yfd => set_iy v c end.
Definition set_index2 (p : Prefix) (h l : Z) (c : cpu) : cpu := set_index16 p (mk16 h l) c.
(* internal.rs:287-295 reg16_ref, 335-343 reg16_mut *)
Definition get_r16 (g : Reg16) (c : cpu) : Z :=
  match g with BC => bc c | DE => de c | HL => hl c | SP => sp c end.
Definition set_r16 (g : Reg16) (v : Z) (c : cpu) : cpu :=
  match g with BC => set_bc v c | DE => set_de v c | HL => set_hl v c | SP => set_sp v c end.
(* internal.rs:317-325 *)
Definition get_prefix_reg16 (g : Reg16) (p : Prefix) (c : cpu) : Z :=
  match g with BC => bc c | DE => de c | HL => get_index16 p c | SP => sp c end.
(* z80.rs:366-369 *)
Definition is_irq_allowed (c : cpu) : bool := iff1 c && is_int_allowed (prefix c) (last_ei c).
(* z80.rs:371-374 *)
Definition is_nmi_allowed (c : cpu) : bool := is_int_allowed (prefix c) (last_ei c).
(* z80.rs:376-379 *)
Definition restore_iff1 (c : cpu) : cpu := set_iffs (iff2 c) (iff2 c) c.
(* z80.rs:381-385 *)
Definition disable_interrupts (c : cpu) : cpu := set_iffs false false c.
(* z80.rs:387-392 *)
Definition enable_interrupts (c : cpu) : cpu := set_last_ei true (set_iffs true true c).
(* z80.rs:394-407 *)
Definition is_after_ei (c : cpu) : bool := last_ei c.
Definition is_after_prefix (c : cpu) : bool := match prefix c with Some _ => true | None => false end.
Definition get_prefix (c : cpu) : option Prefix := prefix c.

(* internal.rs:116-119 *)
Definition ex_de_hl (c : cpu) : cpu := set_hl (de c) (set_de (hl c) c).
(* internal.rs:129-132 *)
Definition load_reg (dst src : Reg8) (p : option Prefix) (c : cpu) : cpu :=
  set_reg dst p (get_reg src p c) c.
End Api.
