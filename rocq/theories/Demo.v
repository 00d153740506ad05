(** Small computers used in the examples beside the theorems. *)
From Coq Require Import ZArith List.
From Verif Require Import Base Parse Cpu Flavours Prog Clock.
Import ListNotations.
Open Scope Z_scope.

(** [l] stored from address [a] on. *)
Fixpoint poke (a : Z) (l : list Z) (m : mem) : mem :=
  match l with [] => m | x :: l => poke (u16 (a + 1)) l (mupd m a x) end.
Definition m0 : mem := fun _ => 0.
(** [demo] with a device that interrupts whenever asked, [vec] being the byte it supplies; every write to an
    I/O port answers with a break request carrying the data. *)
Definition rig (lim vec : Z) : host Z Z Z mem Z :=
  ts_host U64 lim (fun m a => u8 (m a)) (fun m a v _ => mupd m a v)
    dflt_read_io (fun m _ v _ => (m, (Some v, None))) (fun m _ => (m, true)) (fun m _ _ => (m, (vec, None)))
    (fun m _ _ => (m, Some 77)).
Definition nm (p : Z) : cpu qstate := set_pc p (cpu_new NMOS q_default).
