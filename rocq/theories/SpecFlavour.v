(** Vocabulary for comparing CPUs of different flavours. *)
From Coq Require Import ZArith Bool List.
From Verif Require Import Base Parse Cpu Prog Trace Exec SpecIsa SpecStep IsaLink.
Import ListNotations.
Open Scope Z_scope.

(** Equal in everything but the flavour's own state. *)
Definition same_cpu {Q1 Q2} (c1 : cpu Q1) (c2 : cpu Q2) : Prop :=
  (af c1, af_alt c1, bc c1, de c1, hl c1, bc_alt c1, de_alt c1, hl_alt c1, ix c1, iy c1) =
  (af c2, af_alt c2, bc c2, de c2, hl c2, bc_alt c2, de_alt c2, hl_alt c2, ix c2, iy c2) /\
  (pc c1, sp c1, memptr c1, last_ei c1, ir c1, im c1, iff1 c1, iff2 c1, halt c1, prefix c1, r c1) =
  (pc c2, sp c2, memptr c2, last_ei c2, ir c2, im c2, iff1 c2, iff2 c2, halt c2, prefix c2, r c2).
Definition same_but_memptr {Q1 Q2} (c1 : cpu Q1) (c2 : cpu Q2) : Prop := same_cpu (set_memptr 0 c1) (set_memptr 0 c2).
(** The flag bits in [mask] may differ. *)
Definition same_but_flags (mask : Z) {Q1 Q2} (c1 : cpu Q1) (c2 : cpu Q2) : Prop :=
  same_cpu (set_af 0 c1) (set_af 0 c2) /\ get_acc c1 = get_acc c2 /\
  Z.land (get_flags c1) (255 - mask) = Z.land (get_flags c2) (255 - mask).

(** Instructions on which flavours differ: SCF, CCF, LD (BC),A, LD (DE),A, LD (nn),A, OUT (n),A ... *)
Definition scf_ccf : list Z := [0x37; 0x3F].
Definition memptr_stores : list Z := [0x02; 0x12; 0x32; 0xD3].
Definition odd (code : Z) : Prop := In code (scf_ccf ++ memptr_stores).
(** ... and after 0xED: OUT (C),0, LD A,I and LD A,R. *)
Definition odd_ed (code : Z) : Prop := In code [0x71; 0x57; 0x5F].
(** [code] followed by the op-code bytes [ops] is none of these. *)
Definition common (code : Z) (ops : list Z) : Prop :=
  ~ odd code /\ (code = 0xED -> forall x, In x ops -> ~ odd_ed x).
(** The instruction executed in a step with these accesses, if any. *)
Definition common_step {WB RB Q} (c : cpu Q) (bl : list (bev WB RB)) : Prop :=
  match bl with
  | VOp _ _ v :: bl | VIrq _ :: VOp _ _ v :: bl => common v (opcodes bl)
  | VAck _ v _ :: bl | VIrq _ :: VAck _ v _ :: bl => im c = Mode0 -> common v (opcodes bl)
  | _ => True
  end.
(** Any number of [execute_next] steps on one host, none executing an exceptional instruction: [l] lists their
    results. *)
Inductive common_run {Q TS WB RB BS CK} (FL : Flavour Q) (H : host TS WB RB BS CK) :
  cpu Q -> BS -> CK -> cpu Q -> BS -> CK -> list (option (break_cause WB RB)) -> Prop :=
| cr_nil c b k : common_run FL H c b k c b k []
| cr_step dbg c b k c1 x b1 k1 l c2 b2 k2 xs :
    runl H (execute_next FL dbg c) b k = Some ((c1, x), b1, k1, l) -> common_step c (buses l) ->
    common_run FL H c1 b1 k1 c2 b2 k2 xs -> common_run FL H c b k c2 b2 k2 (x :: xs).
