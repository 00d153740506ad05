(** Model of src/z80/any.rs: [Z80Any], and the methods of the trait [Cpu] (src/cpu.rs) as requests. *)
From Coq Require Import ZArith Bool String Ascii List.
From Verif Require Import Base Parse Cpu Flavours Prog Internal Instr Exec.
Import ListNotations.
Open Scope Z_scope.

(* any.rs:38-46 *)
Inductive z80any := AnyNMOS (c : cpu qstate) | AnyCMOS (c : cpu unit) | AnyBM1 (c : cpu qstate).

(** any.rs:22-36: the macro [cpu_dispatch_any!], for methods of [&self], of [&mut self], and for those calling the host. *)
Definition any_get {R} (a : z80any) (f : forall Q, Flavour Q -> cpu Q -> R) : R :=
  match a with AnyNMOS c => f _ NMOS c | AnyCMOS c => f _ CMOS c | AnyBM1 c => f _ BM1 c end.
Definition any_upd (a : z80any) (f : forall Q, Flavour Q -> cpu Q -> cpu Q) : z80any :=
  match a with AnyNMOS c => AnyNMOS (f _ NMOS c) | AnyCMOS c => AnyCMOS (f _ CMOS c) | AnyBM1 c => AnyBM1 (f _ BM1 c) end.
Definition pmap {TS WB RB A B} (f : A -> B) (p : prog TS WB RB A) : prog TS WB RB B := pbind p (fun x => Ret (f x)).
Definition on_fst {A B R} (f : A -> B) (x : A * R) : B * R := (f (fst x), snd x).
Definition any_run {TS WB RB R} (a : z80any) (f : forall Q, Flavour Q -> cpu Q -> prog TS WB RB (cpu Q * R)) : prog TS WB RB (z80any * R) :=
  match a with
  | AnyNMOS c => pmap (on_fst AnyNMOS) (f _ NMOS c)
  | AnyCMOS c => pmap (on_fst AnyCMOS) (f _ CMOS c)
  | AnyBM1 c => pmap (on_fst AnyBM1) (f _ BM1 c)
  end.
(** [execute_with_limit] is modelled with fuel: [None], not finished. *)
Definition any_run_opt {TS WB RB R} (a : z80any) (f : forall Q, Flavour Q -> cpu Q -> prog TS WB RB (option (cpu Q * R)))
  : prog TS WB RB (option (z80any * R)) :=
  match a with
  | AnyNMOS c => pmap (option_map (on_fst AnyNMOS)) (f _ NMOS c)
  | AnyCMOS c => pmap (option_map (on_fst AnyCMOS)) (f _ CMOS c)
  | AnyBM1 c => pmap (option_map (on_fst AnyBM1)) (f _ BM1 c)
  end.

(** ** Methods *)
Definition any_reset (a : z80any) : z80any := any_upd a (fun Q FL c => reset FL c).   (* any.rs:215-217 *)
Definition any_get_pc (a : z80any) : Z := any_get a (fun Q FL c => get_pc c).   (* any.rs:219-221 *)
Definition any_set_pc (v : Z) (a : z80any) : z80any := any_upd a (fun Q FL c => set_pc v c).   (* any.rs:223-225 *)
Definition any_get_sp (a : z80any) : Z := any_get a (fun Q FL c => get_sp c).   (* any.rs:227-229 *)
Definition any_set_sp (v : Z) (a : z80any) : z80any := any_upd a (fun Q FL c => set_sp v c).   (* any.rs:231-233 *)
Definition any_get_acc (a : z80any) : Z := any_get a (fun Q FL c => get_acc c).   (* any.rs:235-237 *)
Definition any_set_acc (v : Z) (a : z80any) : z80any := any_upd a (fun Q FL c => set_acc v c).   (* any.rs:239-241 *)
Definition any_get_flags (a : z80any) : Z := any_get a (fun Q FL c => get_flags c).   (* any.rs:243-245 *)
Definition any_set_flags (v : Z) (a : z80any) : z80any := any_upd a (fun Q FL c => set_flags v c).   (* any.rs:247-249 *)
Definition any_inc_r (a : z80any) : z80any := any_upd a (fun Q FL c => inc_r c).   (* any.rs:251-253 *)
Definition any_add_r (v : Z) (a : z80any) : z80any := any_upd a (fun Q FL c => add_r v c).   (* any.rs:255-257 *)
Definition any_get_r (a : z80any) : Z := any_get a (fun Q FL c => get_r c).   (* any.rs:259-261 *)
Definition any_set_r (v : Z) (a : z80any) : z80any := any_upd a (fun Q FL c => set_r v c).   (* any.rs:263-265 *)
Definition any_get_i (a : z80any) : Z := any_get a (fun Q FL c => get_i c).   (* any.rs:267-269 *)
Definition any_set_i (v : Z) (a : z80any) : z80any := any_upd a (fun Q FL c => set_i v c).   (* any.rs:271-273 *)
Definition any_get_ir (a : z80any) : Z := any_get a (fun Q FL c => get_ir c).   (* any.rs:275-277 *)
Definition any_get_iffs (a : z80any) : bool * bool := any_get a (fun Q FL c => (iff1 c, iff2 c)).   (* any.rs:279-281 *)
Definition any_set_iffs (v1 v2 : bool) (a : z80any) : z80any := any_upd a (fun Q FL c => set_iffs v1 v2 c).   (* any.rs:283-285 *)
Definition any_halt (a : z80any) : z80any := any_upd a (fun Q FL c => do_halt c).   (* any.rs:287-289 *)
Definition any_is_halt (a : z80any) : bool := any_get a (fun Q FL c => halt c).   (* any.rs:291-293 *)
Definition any_get_im (a : z80any) : InterruptMode := any_get a (fun Q FL c => im c).   (* any.rs:295-297 *)
Definition any_set_im (v : InterruptMode) (a : z80any) : z80any := any_upd a (fun Q FL c => set_im v c).   (* any.rs:299-301 *)
Definition any_ex_af_af (a : z80any) : z80any := any_upd a (fun Q FL c => ex_af_af c).   (* any.rs:303-305 *)
Definition any_exx (a : z80any) : z80any := any_upd a (fun Q FL c => exx c).   (* any.rs:307-309 *)
Definition any_get_reg (g : Reg8) (p : option Prefix) (a : z80any) : Z := any_get a (fun Q FL c => get_reg g p c).   (* any.rs:311-313 *)
Definition any_set_reg (g : Reg8) (p : option Prefix) (v : Z) (a : z80any) : z80any := any_upd a (fun Q FL c => set_reg g p v c).   (* any.rs:315-317 *)
Definition any_get_reg2 (s : StkReg16) (a : z80any) : Z * Z := any_get a (fun Q FL c => get_reg2 s c).   (* any.rs:319-321 *)
Definition any_get_alt_reg2 (s : StkReg16) (a : z80any) : Z * Z := any_get a (fun Q FL c => get_alt_reg2 s c).   (* any.rs:323-325 *)
Definition any_get_reg16 (s : StkReg16) (a : z80any) : Z := any_get a (fun Q FL c => get_reg16 s c).   (* any.rs:327-329 *)
Definition any_get_alt_reg16 (s : StkReg16) (a : z80any) : Z := any_get a (fun Q FL c => get_alt_reg16 s c).   (* any.rs:331-333 *)
Definition any_set_reg2 (s : StkReg16) (h l : Z) (a : z80any) : z80any := any_upd a (fun Q FL c => set_reg2 s h l c).   (* any.rs:335-337 *)
Definition any_set_reg16 (s : StkReg16) (v : Z) (a : z80any) : z80any := any_upd a (fun Q FL c => set_reg16 s v c).   (* any.rs:339-341 *)
Definition any_get_index2 (p : Prefix) (a : z80any) : Z * Z := any_get a (fun Q FL c => get_index2 p c).   (* any.rs:343-345 *)
Definition any_get_index16 (p : Prefix) (a : z80any) : Z := any_get a (fun Q FL c => get_index16 p c).   (* any.rs:347-349 *)
Definition any_set_index2 (p : Prefix) (h l : Z) (a : z80any) : z80any := any_upd a (fun Q FL c => set_index2 p h l c).   (* any.rs:351-353 *)
Definition any_set_index16 (p : Prefix) (v : Z) (a : z80any) : z80any := any_upd a (fun Q FL c => set_index16 p v c).   (* any.rs:355-357 *)
Definition any_is_irq_allowed (a : z80any) : bool := any_get a (fun Q FL c => is_irq_allowed c).   (* any.rs:359-361 *)
Definition any_is_nmi_allowed (a : z80any) : bool := any_get a (fun Q FL c => is_nmi_allowed c).   (* any.rs:363-365 *)
Definition any_restore_iff1 (a : z80any) : z80any := any_upd a (fun Q FL c => restore_iff1 c).   (* any.rs:367-369 *)
Definition any_disable_interrupts (a : z80any) : z80any := any_upd a (fun Q FL c => disable_interrupts c).   (* any.rs:371-373 *)
Definition any_enable_interrupts (a : z80any) : z80any := any_upd a (fun Q FL c => enable_interrupts c).   (* any.rs:375-377 *)
Definition any_is_after_ei (a : z80any) : bool := any_get a (fun Q FL c => is_after_ei c).   (* any.rs:379-381 *)
Definition any_is_after_prefix (a : z80any) : bool := any_get a (fun Q FL c => is_after_prefix c).   (* any.rs:383-385 *)
Definition any_get_prefix (a : z80any) : option Prefix := any_get a (fun Q FL c => get_prefix c).   (* any.rs:387-389 *)
Definition any_get_memptr (a : z80any) : Z := any_get a (fun Q FL c => memptr c).   (* any.rs:184-186 *)
Definition any_set_memptr (v : Z) (a : z80any) : z80any := any_upd a (fun Q FL c => set_memptr v c).   (* any.rs:189-191 *)
Definition any_normalize_r (a : z80any) : z80any := any_upd a (fun Q FL c => normalize_r c).   (* any.rs:196-198 *)
Section Host.
Context {TS WB RB : Type}.
(* any.rs:391-397 *)
Definition any_irq (dbg : bool) (a : z80any) : prog TS WB RB (z80any * option (result WB RB)) :=
  any_run a (fun Q FL c => irq FL dbg c).
(* any.rs:399-404 *)
Definition any_nmi (a : z80any) : prog TS WB RB (z80any * bool) :=
  any_run a (fun Q FL c => nmi FL c).
(* any.rs:406-412 *)
Definition any_execute_instruction (dbg : bool) (code : Z) (a : z80any) : prog TS WB RB (z80any * result WB RB) :=
  any_run a (fun Q FL c => execute_instruction FL dbg code c).
(* any.rs:414-420 *)
Definition any_execute_next (dbg : bool) (a : z80any) : prog TS WB RB (z80any * result WB RB) :=
  any_run a (fun Q FL c => execute_next FL dbg c).
(* any.rs:422-427 *)
Definition any_execute_with_limit (da : bool) (fuel : nat) (a : z80any) : prog TS WB RB (option (z80any * result WB RB)) :=
  any_run_opt a (fun Q FL c => execute_with_limit FL da fuel c).
End Host.

(** ** Conversions *)
(* any.rs:48-52, flavours.rs:117-119, 144-146, 183-185: [cpu_into_any] *)
Definition nmos_into_any (c : cpu qstate) : z80any := AnyNMOS c.
Definition cmos_into_any (c : cpu unit) : z80any := AnyCMOS c.
Definition bm1_into_any (c : cpu qstate) : z80any := AnyBM1 c.
(* any.rs:54-60: [From<Z80Any> for Z80<Q>]; [From<Q> for Q] is the identity *)
Definition any_into_nmos_cpu (a : z80any) : cpu qstate :=
  match a with AnyNMOS c => into_flavour (fun q => q) c | AnyCMOS c => into_flavour cmos_to_nmos c | AnyBM1 c => into_flavour bm1_to_nmos c end.
Definition any_into_cmos_cpu (a : z80any) : cpu unit :=
  match a with AnyNMOS c => into_flavour nmos_to_cmos c | AnyCMOS c => into_flavour (fun q => q) c | AnyBM1 c => into_flavour bm1_to_cmos c end.
Definition any_into_bm1_cpu (a : z80any) : cpu qstate :=
  match a with AnyNMOS c => into_flavour nmos_to_bm1 c | AnyCMOS c => into_flavour cmos_to_bm1 c | AnyBM1 c => into_flavour (fun q => q) c end.
(* any.rs:128-142 *)
Definition any_into_nmos (a : z80any) : z80any := AnyNMOS (any_into_nmos_cpu a).
Definition any_into_cmos (a : z80any) : z80any := AnyCMOS (any_into_cmos_cpu a).
Definition any_into_bm1 (a : z80any) : z80any := AnyBM1 (any_into_bm1_cpu a).
(* any.rs:143-181, [None]: panic *)
Definition unwrap_nmos (a : z80any) : option (cpu qstate) := match a with AnyNMOS c => Some c | _ => None end.
Definition unwrap_cmos (a : z80any) : option (cpu unit) := match a with AnyCMOS c => Some c | _ => None end.
Definition unwrap_bm1 (a : z80any) : option (cpu qstate) := match a with AnyBM1 c => Some c | _ => None end.
(* any.rs:102-124 *)
Definition is_nmos (a : z80any) : bool := match a with AnyNMOS _ => true | _ => false end.
Definition is_cmos (a : z80any) : bool := match a with AnyCMOS _ => true | _ => false end.
Definition is_bm1 (a : z80any) : bool := match a with AnyBM1 _ => true | _ => false end.
(* any.rs:63-70, flavours.rs:91-93, 130-132, 157-159; also what [Display] prints, any.rs:207-212 *)
Definition any_tag (a : z80any) : string := match a with AnyNMOS _ => "NMOS" | AnyCMOS _ => "CMOS" | AnyBM1 _ => "BM1" end%string.
(* any.rs:87-100 *)
Definition new_nmos : z80any := AnyNMOS (cpu_new NMOS q_default).
Definition new_cmos : z80any := AnyCMOS (cpu_new CMOS tt).
Definition new_bm1 : z80any := AnyBM1 (cpu_new BM1 q_default).
(* any.rs:200-204 *)
Definition any_default : z80any := AnyNMOS (cpu_default q_default).
(** [str::eq_ignore_ascii_case] of the standard library: equal length, bytes equal after [to_ascii_lowercase]. *)
Definition to_lower (ch : ascii) : ascii :=
  let n := nat_of_ascii ch in if (Nat.leb 65 n && Nat.leb n 90)%bool then ascii_of_nat (n + 32) else ch.
Fixpoint eq_ignore_case (s t : string) : bool :=
  match s, t with
  | EmptyString, EmptyString => true
  | String a s, String b t => Ascii.eqb (to_lower a) (to_lower b) && eq_ignore_case s t
  | _, _ => false
  end.
(* any.rs:72-85 *)
Definition with_tag (tag : string) : option z80any :=
  if eq_ignore_case tag "NMOS" then Some new_nmos
  else if eq_ignore_case tag "CMOS" then Some new_cmos
  else if eq_ignore_case tag "BM1" then Some new_bm1
  else None.

(** ** The trait [Cpu] *)
(** The methods of the trait (src/cpu.rs) with their arguments, and those both types have besides. *)
Inductive call :=
| C_reset | C_get_pc | C_set_pc (v : Z) | C_get_sp | C_set_sp (v : Z) | C_get_acc | C_set_acc (v : Z)
| C_get_flags | C_set_flags (v : Z) | C_inc_r | C_add_r (v : Z) | C_get_r | C_set_r (v : Z) | C_get_i
| C_set_i (v : Z) | C_get_ir | C_get_iffs | C_set_iffs (v1 v2 : bool) | C_halt | C_is_halt | C_get_im
| C_set_im (v : InterruptMode) | C_ex_af_af | C_exx | C_get_reg (g : Reg8) (p : option Prefix)
| C_set_reg (g : Reg8) (p : option Prefix) (v : Z) | C_get_reg2 (s : StkReg16) | C_get_alt_reg2 (s : StkReg16)
| C_get_reg16 (s : StkReg16) | C_get_alt_reg16 (s : StkReg16) | C_set_reg2 (s : StkReg16) (h l : Z)
| C_set_reg16 (s : StkReg16) (v : Z) | C_get_index2 (p : Prefix) | C_get_index16 (p : Prefix)
| C_set_index2 (p : Prefix) (h l : Z) | C_set_index16 (p : Prefix) (v : Z) | C_is_irq_allowed
| C_is_nmi_allowed | C_restore_iff1 | C_disable_interrupts | C_enable_interrupts | C_is_after_ei
| C_is_after_prefix | C_get_prefix | C_get_memptr | C_set_memptr (v : Z) | C_normalize_r
| C_irq (dbg : bool) | C_nmi | C_execute_instruction (dbg : bool) (code : Z) | C_execute_next (dbg : bool)
| C_execute_with_limit (da : bool) (fuel : nat).
Inductive answer (WB RB : Type) :=
| AnUnit | AnInt (n : Z) | AnBool (b : bool) | AnPair (x : Z * Z) | AnBools (x : bool * bool) | AnMode (m : InterruptMode)
| AnPrefix (p : option Prefix) | AnResult (r : result WB RB) | AnIrq (r : option (result WB RB)).
Arguments AnUnit {WB RB}. Arguments AnInt {WB RB}. Arguments AnBool {WB RB}. Arguments AnPair {WB RB}. Arguments AnBools {WB RB}.
Arguments AnMode {WB RB}. Arguments AnPrefix {WB RB}. Arguments AnResult {WB RB}. Arguments AnIrq {WB RB}.

Section Trait.
Context {TS WB RB : Type}.
Notation prog := (prog TS WB RB).
Definition ret_upd {X} (x : X) : prog (option (X * answer WB RB)) := Ret (Some (x, AnUnit)).
Definition ret_val {X} (x : X) (v : answer WB RB) : prog (option (X * answer WB RB)) := Ret (Some (x, v)).
Definition ret_run {X R} (f : R -> answer WB RB) (p : prog (X * R)) : prog (option (X * answer WB RB)) :=
  pmap (fun x => Some (fst x, f (snd x))) p.
Definition ret_opt {X R} (f : R -> answer WB RB) (p : prog (option (X * R))) : prog (option (X * answer WB RB)) :=
  pmap (option_map (fun x => (fst x, f (snd x)))) p.
(** [impl Cpu for Z80<Q>], src/z80.rs:143-570. *)
Definition z80_call {Q} (FL : Flavour Q) (m : call) (c : cpu Q) : prog (option (cpu Q * answer WB RB)) :=
  match m with
  | C_reset => ret_upd (reset FL c)
  | C_get_pc => ret_val c (AnInt (get_pc c))
  | C_set_pc v => ret_upd (set_pc v c)
  | C_get_sp => ret_val c (AnInt (get_sp c))
  | C_set_sp v => ret_upd (set_sp v c)
  | C_get_acc => ret_val c (AnInt (get_acc c))
  | C_set_acc v => ret_upd (set_acc v c)
  | C_get_flags => ret_val c (AnInt (get_flags c))
  | C_set_flags v => ret_upd (set_flags v c)
  | C_inc_r => ret_upd (inc_r c)
  | C_add_r v => ret_upd (add_r v c)
  | C_get_r => ret_val c (AnInt (get_r c))
  | C_set_r v => ret_upd (set_r v c)
  | C_get_i => ret_val c (AnInt (get_i c))
  | C_set_i v => ret_upd (set_i v c)
  | C_get_ir => ret_val c (AnInt (get_ir c))
  | C_get_iffs => ret_val c (AnBools ((iff1 c, iff2 c)))
  | C_set_iffs v1 v2 => ret_upd (set_iffs v1 v2 c)
  | C_halt => ret_upd (do_halt c)
  | C_is_halt => ret_val c (AnBool (halt c))
  | C_get_im => ret_val c (AnMode (im c))
  | C_set_im v => ret_upd (set_im v c)
  | C_ex_af_af => ret_upd (ex_af_af c)
  | C_exx => ret_upd (exx c)
  | C_get_reg g p => ret_val c (AnInt (get_reg g p c))
  | C_set_reg g p v => ret_upd (set_reg g p v c)
  | C_get_reg2 s => ret_val c (AnPair (get_reg2 s c))
  | C_get_alt_reg2 s => ret_val c (AnPair (get_alt_reg2 s c))
  | C_get_reg16 s => ret_val c (AnInt (get_reg16 s c))
  | C_get_alt_reg16 s => ret_val c (AnInt (get_alt_reg16 s c))
  | C_set_reg2 s h l => ret_upd (set_reg2 s h l c)
  | C_set_reg16 s v => ret_upd (set_reg16 s v c)
  | C_get_index2 p => ret_val c (AnPair (get_index2 p c))
  | C_get_index16 p => ret_val c (AnInt (get_index16 p c))
  | C_set_index2 p h l => ret_upd (set_index2 p h l c)
  | C_set_index16 p v => ret_upd (set_index16 p v c)
  | C_is_irq_allowed => ret_val c (AnBool (is_irq_allowed c))
  | C_is_nmi_allowed => ret_val c (AnBool (is_nmi_allowed c))
  | C_restore_iff1 => ret_upd (restore_iff1 c)
  | C_disable_interrupts => ret_upd (disable_interrupts c)
  | C_enable_interrupts => ret_upd (enable_interrupts c)
  | C_is_after_ei => ret_val c (AnBool (is_after_ei c))
  | C_is_after_prefix => ret_val c (AnBool (is_after_prefix c))
  | C_get_prefix => ret_val c (AnPrefix (get_prefix c))
  | C_get_memptr => ret_val c (AnInt (memptr c))
  | C_set_memptr v => ret_upd (set_memptr v c)
  | C_normalize_r => ret_upd (normalize_r c)
  | C_irq dbg => ret_run AnIrq (irq FL dbg c)
  | C_nmi => ret_run AnBool (nmi FL c)
  | C_execute_instruction dbg code => ret_run AnResult (execute_instruction FL dbg code c)
  | C_execute_next dbg => ret_run AnResult (execute_next FL dbg c)
  | C_execute_with_limit da fuel => ret_opt AnResult (execute_with_limit FL da fuel c)
  end.
(** [impl Cpu for Z80Any], any.rs:214-428. *)
Definition any_call (m : call) (a : z80any) : prog (option (z80any * answer WB RB)) :=
  match m with
  | C_reset => ret_upd (any_reset a)
  | C_get_pc => ret_val a (AnInt (any_get_pc a))
  | C_set_pc v => ret_upd (any_set_pc v a)
  | C_get_sp => ret_val a (AnInt (any_get_sp a))
  | C_set_sp v => ret_upd (any_set_sp v a)
  | C_get_acc => ret_val a (AnInt (any_get_acc a))
  | C_set_acc v => ret_upd (any_set_acc v a)
  | C_get_flags => ret_val a (AnInt (any_get_flags a))
  | C_set_flags v => ret_upd (any_set_flags v a)
  | C_inc_r => ret_upd (any_inc_r a)
  | C_add_r v => ret_upd (any_add_r v a)
  | C_get_r => ret_val a (AnInt (any_get_r a))
  | C_set_r v => ret_upd (any_set_r v a)
  | C_get_i => ret_val a (AnInt (any_get_i a))
  | C_set_i v => ret_upd (any_set_i v a)
  | C_get_ir => ret_val a (AnInt (any_get_ir a))
  | C_get_iffs => ret_val a (AnBools (any_get_iffs a))
  | C_set_iffs v1 v2 => ret_upd (any_set_iffs v1 v2 a)
  | C_halt => ret_upd (any_halt a)
  | C_is_halt => ret_val a (AnBool (any_is_halt a))
  | C_get_im => ret_val a (AnMode (any_get_im a))
  | C_set_im v => ret_upd (any_set_im v a)
  | C_ex_af_af => ret_upd (any_ex_af_af a)
  | C_exx => ret_upd (any_exx a)
  | C_get_reg g p => ret_val a (AnInt (any_get_reg g p a))
  | C_set_reg g p v => ret_upd (any_set_reg g p v a)
  | C_get_reg2 s => ret_val a (AnPair (any_get_reg2 s a))
  | C_get_alt_reg2 s => ret_val a (AnPair (any_get_alt_reg2 s a))
  | C_get_reg16 s => ret_val a (AnInt (any_get_reg16 s a))
  | C_get_alt_reg16 s => ret_val a (AnInt (any_get_alt_reg16 s a))
  | C_set_reg2 s h l => ret_upd (any_set_reg2 s h l a)
  | C_set_reg16 s v => ret_upd (any_set_reg16 s v a)
  | C_get_index2 p => ret_val a (AnPair (any_get_index2 p a))
  | C_get_index16 p => ret_val a (AnInt (any_get_index16 p a))
  | C_set_index2 p h l => ret_upd (any_set_index2 p h l a)
  | C_set_index16 p v => ret_upd (any_set_index16 p v a)
  | C_is_irq_allowed => ret_val a (AnBool (any_is_irq_allowed a))
  | C_is_nmi_allowed => ret_val a (AnBool (any_is_nmi_allowed a))
  | C_restore_iff1 => ret_upd (any_restore_iff1 a)
  | C_disable_interrupts => ret_upd (any_disable_interrupts a)
  | C_enable_interrupts => ret_upd (any_enable_interrupts a)
  | C_is_after_ei => ret_val a (AnBool (any_is_after_ei a))
  | C_is_after_prefix => ret_val a (AnBool (any_is_after_prefix a))
  | C_get_prefix => ret_val a (AnPrefix (any_get_prefix a))
  | C_get_memptr => ret_val a (AnInt (any_get_memptr a))
  | C_set_memptr v => ret_upd (any_set_memptr v a)
  | C_normalize_r => ret_upd (any_normalize_r a)
  | C_irq dbg => ret_run AnIrq (any_irq dbg a)
  | C_nmi => ret_run AnBool (any_nmi a)
  | C_execute_instruction dbg code => ret_run AnResult (any_execute_instruction dbg code a)
  | C_execute_next dbg => ret_run AnResult (any_execute_next dbg a)
  | C_execute_with_limit da fuel => ret_opt AnResult (any_execute_with_limit da fuel a)
  end.

(** A program using a CPU: what it asks for next may depend on the answers so far. *)
Inductive client (A : Type) := Done (a : A) | Call (m : call) (k : answer WB RB -> client A).
Arguments Done {A}. Arguments Call {A}.
Fixpoint drive {X A} (do : call -> X -> prog (option (X * answer WB RB))) (cl : client A) (x : X) : prog (option (X * A)) :=
  match cl with
  | Done a => Ret (Some (x, a))
  | Call m k => pbind (do m x) (fun y => match y with Some (x, v) => drive do (k v) x | None => Ret None end)
  end.
End Trait.
Arguments Done {WB RB A}. Arguments Call {WB RB A}.
