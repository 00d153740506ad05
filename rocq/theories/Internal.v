(** Model of src/z80/internal.rs: the CPU's building blocks, as host-call trees. *)
From Coq Require Import ZArith Bool List String.
From Verif Require Import Base Flags Ops Parse Cpu Prog.
Import ListNotations.
Open Scope Z_scope.

(** [LoopExitReason], z80.rs:40-47 (the [LimitReached] and [Irq] variants are only
    produced by the loop of z80.rs:574-611, see [Exec.v]). *)
Inductive exit_reason (WB RB : Type) :=
| EnableInt | LimitReached | Irq | Halt | WriteIoR (w : WB) | RetiR (b : RB).
Arguments EnableInt {WB RB}. Arguments LimitReached {WB RB}. Arguments Irq {WB RB}.
Arguments Halt {WB RB}. Arguments WriteIoR {WB RB}. Arguments RetiR {WB RB}.

Section Internal.
Context {Q TS WB RB : Type}.
Variable FL : Flavour Q.
(** Was a debugger closure given? *)
Variable dbg : bool.

Notation cpu := (cpu Q).
Notation prog := (prog TS WB RB).

(** The state threaded through one instruction: the CPU struct and the local variables
    [flags], [pc] and [prefix] of [execute_instruction] (z80.rs:444-446). *)
Record st := mkSt { sc : cpu; sfl : Z; spc : Z; spx : option Prefix }.
Definition M (A : Type) := st -> prog (st * A).

Definition mret {A} (a : A) : M A := fun s => Ret (s, a).
Definition mbind {A B} (m : M A) (f : A -> M B) : M B :=
  fun s => pbind (m s) (fun x => f (snd x) (fst x)).
Notation "x <- m ;; k" := (mbind m (fun x => k)) (at level 61, m at next level, right associativity).
Notation "m ;;; k" := (mbind m (fun _ => k)) (at level 61, right associativity).

Definition stuck {A} : M A := fun _ => Stuck.
Definition getc {A} (f : cpu -> A) : M A := fun s => Ret (s, f (sc s)).
Definition upd (f : cpu -> cpu) : M unit :=
  fun s => Ret (mkSt (f (sc s)) (sfl s) (spc s) (spx s), tt).
Definition getf : M Z := fun s => Ret (s, sfl s).
Definition setf (v : Z) : M unit := fun s => Ret (mkSt (sc s) v (spc s) (spx s), tt).
Definition getpc : M Z := fun s => Ret (s, spc s).
Definition setpc (v : Z) : M unit := fun s => Ret (mkSt (sc s) (sfl s) v (spx s), tt).
Definition setpx (v : option Prefix) : M unit := fun s => Ret (mkSt (sc s) (sfl s) (spc s) v, tt).

(** Host calls. *)
Definition add_no_mreq (a n : Z) : M unit := fun s => AddNoMreq a n (Ret (s, tt)).
Definition add_m1 (a : Z) : M TS := fun s => AddM1 a (fun t => Ret (s, t)).
Definition add_mreq (a : Z) : M TS := fun s => AddMreq a (fun t => Ret (s, t)).
Definition add_io (a : Z) : M TS := fun s => AddIo a (fun t => Ret (s, t)).
Definition add_irq (a : Z) : M TS := fun s => AddIrq a (fun t => Ret (s, t)).
Definition as_timestamp : M TS := fun s => AsTs (fun t => Ret (s, t)).
Definition add_wait_states (a n : Z) : M unit := fun s => AddWait a n (Ret (s, tt)).
(** the [if let Some(ws) = wait_states { tsc.add_wait_states(bus, ws) }] idiom *)
Definition opt_wait (a : Z) (ws : option Z) : M unit :=
  match ws with Some n => add_wait_states a n | None => mret tt end.
Definition read_io (p : Z) (t : TS) : M (Z * option Z) := fun s => ReadIo p t (fun v w => Ret (s, (v, w))).
Definition write_io (p v : Z) (t : TS) : M (option WB * option Z) :=
  fun s => WriteIo p v t (fun b w => Ret (s, (b, w))).
Definition is_irq (t : TS) : M bool := fun s => IsIrq t (fun b => Ret (s, b)).
Definition irq_data (p : Z) (t : TS) : M (Z * option Z) := fun s => IrqData p t (fun v w => Ret (s, (v, w))).
Definition reti (p : Z) (t : TS) : M (option RB) := fun s => Reti p t (fun b => Ret (s, b)).
Definition read_mem (a : Z) (t : TS) : M Z := fun s => ReadMem a t (fun v => Ret (s, v)).
Definition read_mem16 (a : Z) (t : TS) : M Z := fun s => ReadMem16 a t (fun v => Ret (s, v)).
Definition read_opcode (p i : Z) (t : TS) : M Z := fun s => ReadOpcode p i t (fun v => Ret (s, v)).
Definition write_mem (a v : Z) (t : TS) : M unit := fun s => WriteMem a v t (Ret (s, tt)).
Definition read_debug (a : Z) : M Z := fun s => ReadDebug a (fun v => Ret (s, v)).

(** [control.read_mem(a, tsc.add_mreq(a))] and [control.write_mem(a, v, tsc.add_mreq(a))] *)
Definition rd_mreq (a : Z) : M Z := t <- add_mreq a ;; read_mem a t.
Definition wr_mreq (a v : Z) : M unit := t <- add_mreq a ;; write_mem a v t.

(* [self.flavour.flags_modified()] *)
Definition flags_op : M unit := upd (fun c => set_flavour (flags_modified FL (flavour c)) c).

(** [if let Some(n) = NonZeroU8::new(ADD) { tsc.add_no_mreq(a, n) }] *)
Definition opt_no_mreq (a n : Z) : M unit := if n =? 0 then mret tt else add_no_mreq a n.

(* internal.rs:70-83 *)
Definition fetch_next_opcode (p : Z) : M (Z * Z) :=
  upd inc_r ;;;
  i <- getc get_ir ;;
  t <- add_m1 p ;;
  code <- read_opcode p i t ;;
  mret (u16 (p + 1), code).

(* internal.rs:85-98, with the macro of z80/macros.rs:184-204 assigning $pc *)
Definition fetch_next_imm8 (add : Z) : M Z :=
  p <- getpc ;;
  code <- rd_mreq p ;;
  opt_no_mreq p add ;;;
  setpc (u16 (p + 1)) ;;;
  mret code.

(* internal.rs:100-114, z80/macros.rs:208-230 *)
Definition fetch_next_imm16 (add : Z) : M Z :=
  p <- getpc ;;
  t <- add_mreq p ;;
  nn <- read_mem16 p t ;;
  let pc1 := u16 (p + 1) in
  _ <- add_mreq pc1 ;;
  opt_no_mreq pc1 add ;;;
  setpc (u16 (p + 2)) ;;;
  mret nn.

(* internal.rs:121-127 *)
Definition ex_af_af_with_flags : M unit :=
  f <- getf ;;
  upd (fun c => let a := hi8 (af c) in set_af_alt (mk16 a f) (set_af (af_alt c) c)) ;;;
  f' <- getc get_flags ;;
  setf f'.

(* internal.rs:195-204 *)
Definition pop16 : M Z :=
  p <- getc sp ;;
  t <- add_mreq p ;;
  v <- read_mem16 p t ;;
  _ <- add_mreq (u16 (p + 1)) ;;
  upd (set_sp (u16 (p + 2))) ;;;
  mret v.

(* internal.rs:214-223 *)
Definition push2 (vhi vlo : Z) : M unit :=
  s0 <- getc sp ;;
  let p := u16 (s0 - 1) in
  wr_mreq p vhi ;;;
  let p := u16 (p - 1) in
  wr_mreq p vlo ;;;
  upd (set_sp p).

(* internal.rs:206-212 *)
Definition push16 (v : Z) : M unit := push2 (hi8 v) (lo8 v).

(* internal.rs:225-238 *)
Definition push_ss (ss : StkReg16) : M unit :=
  i <- getc get_ir ;;
  add_no_mreq i 1 ;;;
  f <- getf ;;
  v <- getc (fun c => match ss with
                      | SBC => (hi8 (bc c), lo8 (bc c)) | SDE => (hi8 (de c), lo8 (de c))
                      | SHL => (hi8 (hl c), lo8 (hl c)) | SAF => (hi8 (af c), f) end) ;;
  push2 (fst v) (snd v).

(* internal.rs:240-254 *)
Definition pop_ss (ss : StkReg16) : M unit :=
  v <- pop16 ;;
  match ss with
  | SBC => upd (set_bc v) | SDE => upd (set_de v) | SHL => upd (set_hl v)
  | SAF => setf (u8 v) ;;; upd (set_af v)
  end.

(* internal.rs:277-285 *)
Definition apply_reg8 (g : Reg8) (p : option Prefix) (op : Z -> M Z) : M unit :=
  v <- getc (get_reg g p) ;;
  v' <- op v ;;
  upd (set_reg g p v').

(* internal.rs:30-36: [#[repr(i8)] enum BlockDelta { Increase = 1, Decrease = -1 }]; [delta as u16] sign-extends *)
Inductive BlockDelta := Increase | Decrease.
Definition delta16 (d : BlockDelta) : Z := match d with Increase => 1 | Decrease => 65535 end.

(** [RegisterPair::dec16_is_zero], registers.rs:148-154 *)
Definition dec_bc : M bool :=
  v <- getc bc ;;
  let v' := u16 (v - 1) in
  upd (set_bc v') ;;;
  mret (v' =? 0).

(* internal.rs:363-391 *)
Definition block_transfer (d : BlockDelta) (p : option Z) : M (option Z) :=
  h <- getc hl ;;
  e <- getc de ;;
  v <- rd_mreq h ;;
  wr_mreq e v ;;;
  add_no_mreq e 2 ;;;
  upd (set_hl (u16 (h + delta16 d))) ;;;
  upd (set_de (u16 (e + delta16 d))) ;;;
  over <- dec_bc ;;
  a <- getc get_acc ;;
  f <- getf ;;
  setf (ldx a v over f) ;;;
  flags_op ;;;
  match p with
  | Some p =>
      if negb over then
        add_no_mreq e 5 ;;;
        upd (set_memptr (u16 (p - 1))) ;;;
        mret (Some (u16 (p - 2)))
      else mret None
  | None => mret None
  end.

(* internal.rs:393-419 *)
Definition block_search (d : BlockDelta) (p : option Z) : M (option Z) :=
  h <- getc hl ;;
  v <- rd_mreq h ;;
  add_no_mreq h 5 ;;;
  upd (set_hl (u16 (h + delta16 d))) ;;;
  a <- getc get_acc ;;
  bc0 <- dec_bc ;;
  f <- getf ;;
  let r := cpx a v bc0 f in
  setf (snd r) ;;;
  flags_op ;;;
  let fin := upd (fun c => set_memptr (u16 (memptr c + delta16 d)) c) ;;; mret None in
  match p with
  | Some p =>
      if negb (fst r) then
        add_no_mreq h 5 ;;;
        upd (set_memptr (u16 (p - 1))) ;;;
        mret (Some (u16 (p - 2)))
      else fin
  | None => fin
  end.

(* internal.rs:421-449 *)
Definition block_in (d : BlockDelta) (p : option Z) : M (option Z) :=
  i <- getc get_ir ;;
  add_no_mreq i 1 ;;;
  v0 <- getc bc ;;
  t <- add_io v0 ;;
  r <- read_io v0 t ;;
  opt_wait v0 (snd r) ;;;
  h <- getc hl ;;
  wr_mreq h (fst r) ;;;
  upd (set_memptr (u16 (v0 + delta16 d))) ;;;
  let b := u8 (hi8 v0 - 1) in
  f <- getf ;;
  setf (iox (fst r) b (u8 (lo8 v0 + u8 (delta16 d))) f) ;;;
  flags_op ;;;
  upd (fun c => set_bc (set8hi (bc c) b) c) ;;;
  upd (set_hl (u16 (h + delta16 d))) ;;;
  match p with
  | Some p => if negb (b =? 0) then add_no_mreq h 5 ;;; mret (Some (u16 (p - 2))) else mret None
  | None => mret None
  end.

(* internal.rs:451-484 *)
Definition block_out (d : BlockDelta) (p : option Z) : M (option WB * option Z) :=
  i <- getc get_ir ;;
  add_no_mreq i 1 ;;;
  h <- getc hl ;;
  data <- rd_mreq h ;;
  v0 <- getc bc ;;
  let h1 := u16 (h + delta16 d) in
  let b := u8 (hi8 v0 - 1) in
  f <- getf ;;
  setf (iox data b (u8 h1) f) ;;;
  flags_op ;;;
  let v := mk16 b (lo8 v0) in
  upd (set_memptr (u16 (v + delta16 d))) ;;;
  t <- add_io v ;;
  r <- write_io v data t ;;
  opt_wait v (snd r) ;;;
  upd (fun c => set_bc (set8hi (bc c) b) c) ;;;
  upd (set_hl h1) ;;;
  match p with
  | Some p =>
      if negb (b =? 0) then add_no_mreq v 5 ;;; mret (fst r, Some (u16 (p - 2)))
      else mret (fst r, None)
  | None => mret (fst r, None)
  end.

(** [self.af.op8hi(|a| op(a, flags))] (registers.rs:162-168) for an op returning (value, flags) *)
Definition acc_op (op : Z -> Z -> Z * Z) : M unit :=
  a <- getc get_acc ;;
  f <- getf ;;
  let r := op a f in
  setf (snd r) ;;; upd (set_acc (fst r)).

(* internal.rs:486-499 *)
Definition op8 (op : Ops8) (v : Z) : M unit :=
  match op with
  | ADD => acc_op (fun a f => add a v f)
  | ADC => acc_op (fun a f => adc a v f)
  | SUB => acc_op (fun a f => sub a v f)
  | SBC8 => acc_op (fun a f => sbc a v f)
  | AND => acc_op (fun a f => and8 a v f)
  | XOR => acc_op (fun a f => xor8 a v f)
  | OR => acc_op (fun a f => or8 a v f)
  | CP => a <- getc get_acc ;; f <- getf ;; setf (cp a v f)
  end ;;;
  flags_op.

(* internal.rs:754-766 *)
Definition read_mem8_hl (add : Z) : M Z :=
  h <- getc hl ;;
  v <- rd_mreq h ;;
  opt_no_mreq h add ;;;
  mret v.

(* internal.rs:501-513 *)
Definition op8_with_arg (op : Ops8) (arg : option Reg8) : M unit :=
  v <- match arg with Some g => getc (get_reg g None) | None => read_mem8_hl 0 end ;;
  op8 op v.

(* internal.rs:515-523 *)
Definition ld_a_from_mem8 (addr : Z) : M unit :=
  upd (set_memptr (u16 (addr + 1))) ;;;
  n <- rd_mreq addr ;;
  upd (set_acc n).

(** [let (hi,lo) = Q::memptr_mix(a, lsb); self.memptr.set(hi, lo)].  The flavour returns [u8]s. *)
Definition memptr_mix_set (a lsb : Z) : M unit :=
  let m := memptr_mix FL a lsb in
  upd (set_memptr (mk16 (u8 (fst m)) (u8 (snd m)))).

(* internal.rs:525-533 *)
Definition ld_mem8_from_a (addr : Z) : M unit :=
  a <- getc get_acc ;;
  memptr_mix_set a (u8 addr) ;;;
  wr_mreq addr a.

(* internal.rs:535-554 *)
Definition ex_sp_nn (vhi vlo : Z) : M Z :=
  p <- getc sp ;;
  t <- add_mreq p ;;
  v <- read_mem16 p t ;;
  let p1 := u16 (p + 1) in
  _ <- add_mreq p1 ;;
  add_no_mreq p1 1 ;;;
  wr_mreq p1 vhi ;;;
  wr_mreq p vlo ;;;
  add_no_mreq p 2 ;;;
  upd (set_memptr v) ;;;
  mret v.

(* internal.rs:556-573 *)
Definition instr_rxd (rxd : Z -> Z -> Z -> (Z * Z) * Z) : M unit :=
  h <- getc hl ;;
  upd (set_memptr (u16 (h + 1))) ;;;
  v <- rd_mreq h ;;
  add_no_mreq h 4 ;;;
  a <- getc get_acc ;;
  f <- getf ;;
  let r := rxd a v f in
  setf (snd r) ;;;
  wr_mreq h (snd (fst r)) ;;;
  upd (set_acc (fst (fst r))) ;;;
  flags_op.

(* internal.rs:575-590 *)
Definition op16_reg16 (op : Z -> Z -> Z -> Z * Z) (v nn : Z) : M Z :=
  i <- getc get_ir ;;
  add_no_mreq i 7 ;;;
  upd (set_memptr (u16 (v + 1))) ;;;
  f <- getf ;;
  let r := op v nn f in
  setf (snd r) ;;;
  flags_op ;;;
  mret (fst r).

(* internal.rs:592-604 *)
Definition write_mem16_addr16 (addr vhi vlo : Z) : M unit :=
  wr_mreq addr vlo ;;;
  let a1 := u16 (addr + 1) in
  upd (set_memptr a1) ;;;
  wr_mreq a1 vhi.

(* internal.rs:606-617 *)
Definition read_mem16_addr16 (addr : Z) : M Z :=
  t <- add_mreq addr ;;
  v <- read_mem16 addr t ;;
  let a1 := u16 (addr + 1) in
  upd (set_memptr a1) ;;;
  _ <- add_mreq a1 ;;
  mret v.

(* internal.rs:619-630 *)
Definition r_op_w_mem8 (op : Z -> M Z) : M unit :=
  h <- getc hl ;;
  v0 <- rd_mreq h ;;
  v <- op v0 ;;
  add_no_mreq h 1 ;;;
  wr_mreq h v.

(** an op of type [fn(u8, &mut CpuFlags) -> u8] *)
Definition flag_fn (op : Z -> Z -> Z * Z) : Z -> M Z :=
  fun v => f <- getf ;; let r := op v f in setf (snd r) ;;; mret (fst r).

(* internal.rs:632-646 *)
Definition instr_inc_dec8 (arg : option Reg8) (op : Z -> Z -> Z * Z) : M unit :=
  match arg with
  | Some g => apply_reg8 g None (flag_fn op)
  | None => r_op_w_mem8 (flag_fn op)
  end ;;;
  flags_op.

(** [indexed_address!], z80/macros.rs:34-40: [ii.wrapping_add(d as i8 as i16 as u16)] *)
Definition indexed_address (ii d : Z) : Z := u16 (ii + u16 (i8 d)).

(* internal.rs:648-666 *)
Definition instr_inc_dec_x_mem8 (p : Prefix) (d : Z) (op : Z -> Z -> Z * Z) : M unit :=
  ii <- getc (get_index16 p) ;;
  let a := indexed_address ii d in
  v0 <- rd_mreq a ;;
  v <- flag_fn op v0 ;;
  flags_op ;;;
  add_no_mreq a 1 ;;;
  upd (set_memptr a) ;;;
  wr_mreq a v.

(* internal.rs:668-693; REG_I: true for LD A,I *)
Definition instr_ld_a_from_ir (reg_i : bool) : M unit :=
  i <- getc get_ir ;;
  add_no_mreq i 1 ;;;
  let v := if reg_i then hi8 i else lo8 i in
  f2 <- getc iff2 ;;
  f1 <- getc iff1 ;;
  x <- (if f2 then
          if accept_irq_early FL && f1
          then t <- as_timestamp ;; q <- is_irq t ;; mret (negb q)
          else mret true
        else mret false) ;;
  f <- getf ;;
  setf (ld_a_ir v x f) ;;;
  flags_op ;;;
  upd (set_acc v).

(* internal.rs:695-708 *)
Definition instr_ld_ir_from_a (reg_i : bool) : M unit :=
  i <- getc get_ir ;;
  add_no_mreq i 1 ;;;
  a <- getc get_acc ;;
  upd (if reg_i then set_i a else set_r a).

(* internal.rs:710-719; REG_BC: true for (BC) *)
Definition rp_bc_de (is_bc : bool) (c : cpu) : Z := if is_bc then bc c else de c.
Definition instr_ld_a_from_rp (is_bc : bool) : M unit :=
  a <- getc (rp_bc_de is_bc) ;;
  upd (set_memptr (u16 (a + 1))) ;;;
  n <- rd_mreq a ;;
  upd (set_acc n).

(* internal.rs:721-732 *)
Definition instr_ld_rp_from_a (is_bc : bool) : M unit :=
  rp <- getc (rp_bc_de is_bc) ;;
  a <- getc get_acc ;;
  memptr_mix_set a (u8 rp) ;;;
  wr_mreq rp a.

(* internal.rs:734-740 *)
Definition write_mem8_hl (v : Z) : M unit := h <- getc hl ;; wr_mreq h v.

(* internal.rs:742-752 *)
Definition write_mem8_ii_d (p : Prefix) (d v : Z) : M unit :=
  ii <- getc (get_index16 p) ;;
  let a := indexed_address ii d in
  upd (set_memptr a) ;;;
  wr_mreq a v.

(* internal.rs:768-778 *)
Definition read_mem8_ii_d (p : Prefix) (d : Z) : M Z :=
  ii <- getc (get_index16 p) ;;
  let a := indexed_address ii d in
  upd (set_memptr a) ;;;
  rd_mreq a.

(* internal.rs:780-792 *)
Definition io_a_inp_an (n : Z) : M unit :=
  a <- getc get_acc ;;
  let port := mk16 a n in
  upd (set_memptr (u16 (port + 1))) ;;;
  t <- add_io port ;;
  r <- read_io port t ;;
  opt_wait port (snd r) ;;;
  upd (set_acc (fst r)).

(* internal.rs:794-807 *)
Definition io_a_out_an (n : Z) : M (option WB) :=
  a <- getc get_acc ;;
  memptr_mix_set a n ;;;
  let port := mk16 a n in
  t <- add_io port ;;
  r <- write_io port a t ;;
  opt_wait port (snd r) ;;;
  mret (fst r).

(* internal.rs:809-827 *)
Definition io_r_inp_bc (arg : option Reg8) : M unit :=
  v <- getc bc ;;
  t <- add_io v ;;
  r <- read_io v t ;;
  opt_wait v (snd r) ;;;
  f <- getf ;;
  setf (io (fst r) f) ;;;
  flags_op ;;;
  upd (set_memptr (u16 (v + 1))) ;;;
  match arg with Some g => upd (set_reg g None (fst r)) | None => mret tt end.

(* internal.rs:829-851 *)
Definition io_r_out_bc (arg : option Reg8) : M (option WB) :=
  v <- getc bc ;;
  upd (set_memptr (u16 (v + 1))) ;;;
  d <- match arg with Some g => getc (get_reg g None) | None => mret (u8 (constant_out_data FL)) end ;;
  t <- add_io v ;;
  r <- write_io v d t ;;
  opt_wait v (snd r) ;;;
  mret (fst r).

(* internal.rs:53-67 *)
Definition rot_op (r : Rot) : Z -> Z -> Z * Z :=
  match r with
  | RLC => rlc | RRC => rrc | RL => rl | RR => rr
  | SLA => sla | SRA => sra | SLL => sll | SRL => srl
  end.

(* internal.rs:853-904 *)
Definition bitops (o : BitOps) : M unit :=
  match o with
  | BRot r arg =>
      match arg with
      | Some g => apply_reg8 g None (flag_fn (rot_op r))
      | None => r_op_w_mem8 (flag_fn (rot_op r))
      end ;;;
      flags_op
  | BBit b arg =>
      match arg with
      | Some g => v <- getc (get_reg g None) ;; f <- getf ;; setf (bit b v f)
      | None => v <- read_mem8_hl 1 ;; m <- getc memptr ;; f <- getf ;; setf (bit_mp b v (hi8 m) f)
      end ;;;
      flags_op
  | BRes b arg =>
      match arg with
      | Some g => apply_reg8 g None (fun v => mret (res b v))
      | None => r_op_w_mem8 (fun v => mret (res b v))
      end
  | BSet b arg =>
      match arg with
      | Some g => apply_reg8 g None (fun v => mret (set b v))
      | None => r_op_w_mem8 (fun v => mret (set b v))
      end
  end.

(* internal.rs:907-945 *)
Definition bitops_qq (o : BitOps) (p : Prefix) (d : Z) : M unit :=
  ii <- getc (get_index16 p) ;;
  let a := indexed_address ii d in
  upd (set_memptr a) ;;;
  v <- rd_mreq a ;;
  add_no_mreq a 1 ;;;
  let fin (x : Z) (arg : option Reg8) :=
    wr_mreq a x ;;;
    match arg with Some g => upd (set_reg g None x) | None => mret tt end in
  match o with
  | BRot r arg => x <- flag_fn (rot_op r) v ;; flags_op ;;; fin x arg
  | BBit b _ => f <- getf ;; setf (bit_mp b v (hi8 a) f) ;;; flags_op
  | BRes b arg => fin (res b v) arg
  | BSet b arg => fin (set b v) arg
  end.

(** ** The debugger: z80/macros.rs:42-172 and z80/debug.rs:41-66 *)

(** Arguments are evaluated only when a debugger is present; [None] is a panic
    ([unwrap] / [panic!("addr:ii requires a prefix")]). *)
Definition dargs_t := option Prefix -> option CpuDebugArgs.

Definition prefix_bytes (p : option Prefix) : list Z :=
  match p with Some x => [prefix_to_code x] | None => [] end.

(** [CpuDebug::debug_instruction]; [ArrayVec<u8,4>] panics when more than 4 bytes are pushed. *)
Definition cpu_debug (bytes : list Z) (mnemonic : string) (args : dargs_t) : M unit :=
  fun s =>
    if dbg then
      match args (spx s) with
      | Some a =>
          let code := (prefix_bytes (spx s) ++ bytes)%list in
          if (List.length code <=? 4)%nat
          then Debug (mkDebug code mnemonic (u16 (spc s - Z.of_nat (List.length code))) (spx s) a)
                     (Ret (s, tt))
          else Stuck
      | None => Stuck
      end
    else Ret (s, tt).

Definition a0 : dargs_t := fun _ => Some ANone.
Definition darg_t := option Prefix -> option CpuDebugArg.
Definition a1 (x : darg_t) : dargs_t := fun p =>
  match x p with Some a => Some (ASingle a) | None => None end.
Definition a2 (x y : darg_t) : dargs_t := fun p =>
  match x p, y p with Some a, Some b => Some (ADouble a b) | _, _ => None end.
Definition d_n (n : Z) : darg_t := fun _ => Some (DImm8 n).
Definition d_b (b : Z) : darg_t := fun _ => Some (DBit b).
Definition d_m (m : InterruptMode) : darg_t := fun _ => Some (DIntMode m).
Definition d_nn (n : Z) : darg_t := fun _ => Some (DImm16 n).
Definition d_p (n : Z) : darg_t := fun _ => Some (DImm8 (u8 n)).
Definition d_r (g : Reg8) : darg_t := fun _ => Some (DReg8 None g).
Definition d_I : darg_t := fun _ => Some DI.
Definition d_R : darg_t := fun _ => Some DR.
Definition d_q (g : Reg8) : darg_t := fun p => Some (DReg8 p g).
Definition d_rr (g : Reg16) : darg_t := fun _ => Some (DReg16 None g).
Definition d_qq (g : Reg16) : darg_t := fun p => Some (DReg16 p g).
Definition d_ss (g : StkReg16) : darg_t := fun _ => Some (DStk16 g).
Definition d_addr (g : Reg16) : darg_t := fun _ => Some (DAddr (RegAddr g)).
Definition d_addr_ii : darg_t := fun p =>
  match p with Some x => Some (DAddr (IndexAddr x None)) | None => None end.
Definition d_ii (d : Z) : darg_t := fun p =>
  match p with Some x => Some (DAddr (IndexAddr x (Some (i8 d)))) | None => None end.
Definition d_adnn (n : Z) : darg_t := fun _ => Some (DAddr (ImmAddr n)).
Definition d_port_c : darg_t := fun _ => Some (DPort RegPort).
Definition d_port (n : Z) : darg_t := fun _ => Some (DPort (ImmPort n)).
Definition d_cc (c : Condition) : darg_t := fun _ => Some (DCond c).
Definition d_r_addr (g : option Reg8) : darg_t := fun _ =>
  match g with Some x => Some (DReg8 None x) | None => Some (DAddr (RegAddr HL)) end.
(* z80/macros.rs:112-123: [maybe_r] before or after another argument *)
Definition a_maybe_r_x (g : option Reg8) (x : darg_t) : dargs_t :=
  match g with Some r => a2 (d_r r) x | None => a1 x end.
Definition a_x_maybe_r (x : darg_t) (g : option Reg8) : dargs_t :=
  match g with Some r => a2 x (d_r r) | None => a1 x end.
(* z80/macros.rs:106-111 *)
Definition a_b_ii_maybe_r (b d : Z) (g : option Reg8) : dargs_t := fun p =>
  match g with
  | Some r => match d_ii d p with Some a => Some (ABitOpExt b a r) | None => None end
  | None => a2 (d_b b) (d_ii d) p
  end.
(* z80/macros.rs:69-78 op8($op) *)
Definition cpu_debug_op8 (bytes : list Z) (op : Ops8) (x : darg_t) : M unit :=
  match op with
  | ADD | ADC | SBC8 => cpu_debug bytes (ops8_str op) (a2 (d_r A) x)
  | _ => cpu_debug bytes (ops8_str op) (a1 x)
  end.
(* z80/macros.rs:79-88 *)
Definition cpu_debug_bitops (bytes : list Z) (o : BitOps) : M unit :=
  match o with
  | BRot r arg => cpu_debug bytes (rot_str r) (a1 (d_r_addr arg))
  | BBit b arg => cpu_debug bytes "BIT" (a2 (d_b b) (d_r_addr arg))
  | BRes b arg => cpu_debug bytes "RES" (a2 (d_b b) (d_r_addr arg))
  | BSet b arg => cpu_debug bytes "SET" (a2 (d_b b) (d_r_addr arg))
  end.
(* z80/macros.rs:89-98 *)
Definition cpu_debug_bitops_ii (bytes : list Z) (o : BitOps) (d : Z) : M unit :=
  match o with
  | BRot r arg => cpu_debug bytes (rot_str r) (a_x_maybe_r (d_ii d) arg)
  | BBit b _ => cpu_debug bytes "BIT" (a2 (d_b b) (d_ii d))
  | BRes b arg => cpu_debug bytes "RES" (a_b_ii_maybe_r b d arg)
  | BSet b arg => cpu_debug bytes "SET" (a_b_ii_maybe_r b d arg)
  end.
(* z80/macros.rs:437-443 relative_jump_address!: [$pc + Wrapping(e as i8 as i16 as u16)] *)
Definition relative_jump_address (p e : Z) : Z := u16 (p + u16 (i8 e)).
End Internal.
Arguments mkSt {Q}. Arguments sc {Q}. Arguments sfl {Q}. Arguments spc {Q}. Arguments spx {Q}.
Arguments M Q TS WB RB A : clear implicits.
