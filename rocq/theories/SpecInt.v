(** Vocabulary for interrupt responses, HALT and the stack (C17-C20, C24), in terms of the crate's registers and
    the bus accesses and machine cycles of [SpecIsa]. *)
From Coq Require Import ZArith Bool List.
From Verif Require Import Parse Cpu Prog Trace Exec SpecState SpecIsa SpecStep IsaRun.
Import ListNotations.
Open Scope Z_scope.

Section Int.
Context {Q : Type}.
Implicit Types c : cpu Q.
(** The register pairs, the index registers, I and the interrupt mode are untouched. *)
Record keeps c c' : Prop := mkKeeps {
  kp_af : af c' = af c; kp_bc : bc c' = bc c; kp_de : de c' = de c; kp_hl : hl c' = hl c;
  kp_af' : af_alt c' = af_alt c; kp_bc' : bc_alt c' = bc_alt c; kp_de' : de_alt c' = de_alt c; kp_hl' : hl_alt c' = hl_alt c;
  kp_ix : ix c' = ix c; kp_iy : iy c' = iy c; kp_i : get_i c' = get_i c; kp_im : im c' = im c }.
(** The address to come back to: the instruction after HALT for a halted processor. *)
Definition return_to c : Z := if halt c then (pc c + 1) mod 65536 else pc c.
(** Pushing [v]. *)
Definition pushes {WB RB} c (v : Z) : list (bev WB RB) :=
  [VWr ((sp c - 1) mod 65536) (v / 256); VWr ((sp c - 2) mod 65536) (v mod 256)].
(** The cycles of an interrupt acknowledge with [w] wait states. *)
Definition ack (a : Z) (w : option Z) : list tev := TAck a :: match w with Some n => [TWait a n] | None => [] end.
(** One idle T-state with the refresh address on the bus, then the two stack cycles. *)
Definition push_cycles c : list tev :=
  [TX (256 * get_i c + r_plus 1 (get_r c)) 1;
   TMreq ((sp c - 1) mod 65536); TMreq ((sp c - 2) mod 65536)].
(** [c] after accepting a maskable interrupt and jumping to [p]. *)
Record after_int c c' (p : Z) : Prop := mkAfter {
  ai_keeps : keeps c c'; ai_pc : pc c' = p; ai_sp : sp c' = (sp c - 2) mod 65536; ai_wz : memptr c' = p;
  ai_iff1 : iff1 c' = false; ai_iff2 : iff2 c' = false; ai_halt : halt c' = false; ai_ei : last_ei c' = false;
  ai_px : prefix c' = None; ai_r : get_r c' = r_plus 1 (get_r c) }.
(** [c] after accepting a non-maskable interrupt. *)
Record after_nmi c c' : Prop := mkAfterN {
  an_keeps : keeps c c'; an_pc : pc c' = 0x66; an_sp : sp c' = (sp c - 2) mod 65536; an_wz : memptr c' = memptr c;
  an_iff1 : iff1 c' = false; an_iff2 : iff2 c' = iff2 c; an_halt : halt c' = false; an_ei : last_ei c' = last_ei c;
  an_px : prefix c' = prefix c; an_r : get_r c' = r_plus 1 (get_r c) }.
(** The state in which a mode 0 interrupt executes the instruction byte supplied by the device. *)
Definition taken c : cpu Q := inc_r (set_iffs false false (set_halt false (set_pc (return_to c) c))).
(** The register pair PUSH and POP number [n] refer to, with prefix [px]. *)
Definition pair (px : option Prefix) (n : Z) c : Z :=
  match n, px with
  | 0, _ => bc c | 1, _ => de c
  | 2, None => hl c | 2, Some Xdd => ix c | 2, Some Yfd => iy c
  | _, _ => af c
  end.
(** [c'] is [c] with [v] in that register pair. *)
Record only_pair (px : option Prefix) (n v : Z) c c' : Prop := mkOnly {
  op_new : pair px n c' = v;
  op_af : n <> 3 -> af c' = af c;
  op_bc : n <> 0 -> bc c' = bc c;
  op_de : n <> 1 -> de c' = de c;
  op_hl : n <> 2 \/ px <> None -> hl c' = hl c;
  op_ix : n <> 2 \/ px <> Some Xdd -> ix c' = ix c;
  op_iy : n <> 2 \/ px <> Some Yfd -> iy c' = iy c;
  op_alt : af_alt c' = af_alt c /\ bc_alt c' = bc_alt c /\ de_alt c' = de_alt c /\ hl_alt c' = hl_alt c;
  op_i : get_i c' = get_i c; op_im : im c' = im c; op_pc : pc c' = pc c; op_sp : sp c' = sp c }.
End Int.
(** The word [v] in memory at [a], low byte first. *)
Definition holds_at (m : Z -> Z) (a v : Z) : Prop := m a = v mod 256 /\ m ((a + 1) mod 65536) = v / 256.
(** The two stores of pushing [v]. *)
Definition pushed_at {Q} (c : cpu Q) (v : Z) : list (Z * Z) :=
  [((sp c - 1) mod 65536, v / 256); ((sp c - 2) mod 65536, v mod 256)].
(** On RAM: after [p] (leaving CPU [f x]) and then RET, the CPU of [c] is at [v] with all registers and SP restored; memory
    is only changed in the two bytes below the stack. *)
Definition back {Q TS WB RB A} (FL : Flavour Q) dbg (c : cpu Q) (v : Z) (p : prog TS WB RB A) (f : A -> cpu Q) : Prop :=
  forall BS CK (Hs : host TS WB RB BS CK) mo b k, ram_host Hs mo ->
  exists c' b' k' l, runl Hs (pbind p (fun x => execute_instruction FL dbg 0xC9 (f x))) b k = Some ((c', None), b', k', l) /\
    keeps c c' /\ pc c' = v /\ sp c' = sp c /\
    (forall a, a <> (sp c - 1) mod 65536 -> a <> (sp c - 2) mod 65536 -> mo b' a = mo b a).
