(** Model of the crate's clock [TsCounter] and of the default methods of [Memory] and [Io]
    (src/host.rs:145-160, 222-388, 434-501). *)
From Coq Require Import ZArith Bool List Lia.
From Verif Require Import Base Flags Parse Prog Trace.
Import ListNotations.
Open Scope Z_scope.

(* host.rs:147-160 *)
Definition M1_CYCLE_TS : Z := 4.
Definition MEMRW_CYCLE_TS : Z := 3.
Definition IO_IORQ_LOW_TS : Z := 1.
Definition IO_CYCLE_TS : Z := 4.
Definition INT_IORQ_LOW_TS : Z := 2.
Definition IRQ_ACK_CYCLE_TS : Z := 6.

(** [Wrapping<T>] for an integer type of [bits] bits, signed or not: a value is the representative in
    the type's range. *)
Record itype := mkIty { signed : bool; bits : Z }.
Definition wrap (t : itype) (x : Z) : Z :=
  let m := 2 ^ bits t in
  let r := x mod m in
  if signed t && (m / 2 <=? r) then r - m else r.

Section TsCounter.
Variable T : itype.
(* host.rs:451-455 *)
Definition ts_is_past_limit (limit : Z) (c : Z) : bool := limit <=? c.
(* host.rs:457-462 *)
Definition ts_add_irq (c : Z) (_ : Z) : Z * Z :=
  (wrap T (c + IRQ_ACK_CYCLE_TS), wrap T (c + INT_IORQ_LOW_TS)).
(* host.rs:464-469 *)
Definition ts_add_no_mreq (c : Z) (_ n : Z) : Z := wrap T (c + n).
(* host.rs:471-477 *)
Definition ts_add_io (c : Z) (_ : Z) : Z * Z := (wrap T (c + IO_CYCLE_TS), wrap T (c + IO_IORQ_LOW_TS)).
(* host.rs:479-484 *)
Definition ts_add_mreq (c : Z) (_ : Z) : Z * Z := let c := wrap T (c + MEMRW_CYCLE_TS) in (c, c).
(* host.rs:486-491 *)
Definition ts_add_m1 (c : Z) (_ : Z) : Z * Z := let c := wrap T (c + M1_CYCLE_TS) in (c, c).
(* host.rs:492-495 *)
Definition ts_add_wait (c : Z) (_ n : Z) : Z := wrap T (c + n).
(* host.rs:497-500 *)
Definition ts_as_timestamp (c : Z) : Z := c.
End TsCounter.

(** A host with the clock [TsCounter<T>] and limit [lim], and with [Memory] and [Io] having the default
    methods except for the given ones: [rdb]: [read_debug], [wrm]: [write_mem], [rio]: [read_io],
    [wio]: [write_io], [irq]: [is_irq], [vec]: [irq_data], [rti]: [reti]. *)
Definition ts_host {WB RB BS : Type} (T : itype) (lim : Z)
    (rdb : BS -> Z -> Z) (wrm : BS -> Z -> Z -> Z -> BS)
    (rio : BS -> Z -> Z -> BS * (Z * option Z)) (wio : BS -> Z -> Z -> Z -> BS * (option WB * option Z))
    (irq : BS -> Z -> BS * bool) (vec : BS -> Z -> Z -> BS * (Z * option Z))
    (rti : BS -> Z -> Z -> BS * option RB) : host Z WB RB BS Z :=
  mkHost (ts_is_past_limit lim) (ts_add_irq T) (ts_add_no_mreq T) (ts_add_m1 T) (ts_add_mreq T)
    (ts_add_io T) (ts_add_wait T) ts_as_timestamp
    rio wio irq vec rti
    (fun b a _ => (b, rdb b a))                                        (* host.rs:332-334 read_mem *)
    (fun b a _ => (b, rdb b a + 256 * rdb b (u16 (a + 1))))            (* host.rs:346-350 read_mem16 *)
    (fun b p _ _ => (b, rdb b p))                                      (* host.rs:364-366 read_opcode *)
    wrm
    (fun b a => (b, rdb b a)).

(* host.rs:244-312: the default methods of [Io] *)
Definition dflt_read_io {BS} (b : BS) (_ _ : Z) : BS * (Z * option Z) := (b, (255, None)).
Definition dflt_write_io {BS WB} (b : BS) (_ _ _ : Z) : BS * (option WB * option Z) := (b, (None, None)).
Definition dflt_is_irq {BS} (b : BS) (_ : Z) : BS * bool := (b, false).
Definition dflt_irq_data {BS} (b : BS) (_ _ : Z) : BS * (Z * option Z) := (b, (0xFF, None)).
Definition dflt_reti {BS RB} (b : BS) (_ _ : Z) : BS * option RB := (b, None).

(** Memory of 64 kB: a total function, [upd m a v] after a store. *)
Definition mem := Z -> Z.
Definition mupd (m : mem) (a v : Z) : mem := fun x => if x =? a then v else m x.
Definition of_list (l : list Z) : mem := fun a => nth (Z.to_nat a) l 0.

(** A computer with 64 kB of RAM, default I/O, a 64-bit clock: used in the examples. *)
Definition U64 : itype := mkIty false 64.
Definition demo (lim : Z) : host Z Z Z mem Z :=
  ts_host U64 lim (fun m a => u8 (m a)) (fun m a v _ => mupd m a v)
    dflt_read_io dflt_write_io dflt_is_irq dflt_irq_data dflt_reti.
