(** States reachable from reset by any interleaving of the execution entry points, each on any host. *)
From Coq Require Import ZArith Bool List.
From Verif Require Import Base Parse Cpu Flavours Prog Trace Exec.
Open Scope Z_scope.

(** [lim]: is [execute_with_limit] among the calls? *)
Inductive reach {Q} (TS WB RB : Type) (FL : Flavour Q) (q0 : Q) (lim : bool) : cpu Q -> Prop :=
| r_reset : reach TS WB RB FL q0 lim (cpu_new FL q0)
| r_next dbg c BS CK (Hs : host TS WB RB BS CK) b k c' x b' k' l :
    reach TS WB RB FL q0 lim c -> runl Hs (execute_next FL dbg c) b k = Some ((c', x), b', k', l) ->
    reach TS WB RB FL q0 lim c'
| r_exec dbg code c BS CK (Hs : host TS WB RB BS CK) b k c' x b' k' l : byte code ->
    reach TS WB RB FL q0 lim c -> runl Hs (execute_instruction FL dbg code c) b k = Some ((c', x), b', k', l) ->
    reach TS WB RB FL q0 lim c'
| r_irq dbg c BS CK (Hs : host TS WB RB BS CK) b k c' x b' k' l :
    reach TS WB RB FL q0 lim c -> runl Hs (irq FL dbg c) b k = Some ((c', x), b', k', l) ->
    reach TS WB RB FL q0 lim c'
| r_nmi c BS CK (Hs : host TS WB RB BS CK) b k c' x b' k' l :
    reach TS WB RB FL q0 lim c -> runl Hs (nmi FL c) b k = Some ((c', x), b', k', l) ->
    reach TS WB RB FL q0 lim c'
| r_limit fuel c BS CK (Hs : host TS WB RB BS CK) b k c' x b' k' l : lim = true ->
    reach TS WB RB FL q0 lim c -> runl Hs (execute_with_limit FL false fuel c) b k = Some (Some (c', x), b', k', l) ->
    reach TS WB RB FL q0 lim c'.
