(** Cutting a run of [execute_with_limit] into slices. *)
From Coq Require Import ZArith Bool List.
From Verif Require Import Base Parse Cpu Flavours Prog Trace Exec.
Import ListNotations.
Open Scope Z_scope.

(** The host [H] whose clock has another limit: [past k], the clock at [k] is past it. *)
Definition limited {TS WB RB BS CK} (past : CK -> bool) (H : host TS WB RB BS CK) : host TS WB RB BS CK :=
  mkHost past (h_add_irq H) (h_add_no_mreq H) (h_add_m1 H) (h_add_mreq H) (h_add_io H) (h_add_wait H) (h_as_ts H)
    (h_read_io H) (h_write_io H) (h_is_irq H) (h_irq_data H) (h_reti H) (h_read_mem H) (h_read_mem16 H) (h_read_opcode H)
    (h_write_mem H) (h_read_debug H).
(** [past'] is the later limit. *)
Definition later {CK} (past past' : CK -> bool) : Prop := forall k, past' k = true -> past k = true.
(** Op-codes of DJNZ and JR cc. *)
Definition rel_cond : list Z := [0x10; 0x20; 0x28; 0x30; 0x38].
(** A host call made while executing: not a look at the limit; [read_debug] only of addresses that may be peeked at;
    nothing for a debugger when there is none. *)
Definition quiet {TS WB RB} (dbg : bool) (peek : Z -> Prop) (e : ev TS WB RB) : Prop :=
  match e with KPast _ => False | ERdDebug a _ => peek a | EDebug _ => dbg = true | _ => True end.
(** What the world sees: everything but looks at the limit, at the interrupt line, and at the clock for it. *)
Definition acts {TS WB RB} (e : ev TS WB RB) : bool := match e with KPast _ | KTs _ | EIsIrq _ _ => false | _ => true end.
Definition actions {TS WB RB} (l : list (ev TS WB RB)) : list (ev TS WB RB) := filter acts l.
(** One call of [execute_with_limit] after another, each with its own limit, until one of them does not return [Ok]. *)
Inductive frames {Q TS WB RB BS CK} (FL : Flavour Q) (H : host TS WB RB BS CK) (da : bool) :
  list (CK -> bool) -> cpu Q -> BS -> CK -> cpu Q -> result WB RB -> BS -> CK -> list (ev TS WB RB) -> Prop :=
| fr_last p n c b k c' r b' k' l :
    runl (limited p H) (execute_with_limit FL da n c) b k = Some (Some (c', r), b', k', l) ->
    frames FL H da [p] c b k c' r b' k' l
| fr_break p ps n c b k c' e b' k' l :
    runl (limited p H) (execute_with_limit FL da n c) b k = Some (Some (c', Some e), b', k', l) ->
    frames FL H da (p :: ps) c b k c' (Some e) b' k' l
| fr_next p ps n c b k c1 b1 k1 l1 c' r b' k' l2 :
    runl (limited p H) (execute_with_limit FL da n c) b k = Some (Some (c1, None), b1, k1, l1) ->
    frames FL H da ps c1 b1 k1 c' r b' k' l2 ->
    frames FL H da (p :: ps) c b k c' r b' k' (l1 ++ l2).
