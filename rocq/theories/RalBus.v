(** The clock, the bus and the end of the daisy chain of the example computer RAL 1243
    (examples/ral1243/src/clock.rs, examples/ral1243/src/bus.rs).

    A device is the record of its methods.  [None] is a panic; arithmetic on the timestamps ([Ts], an [u32]: clock.rs:15) is as in a
    build with overflow checks.  Arguments are wrapped to their Rust types. *)
From Coq Require Import ZArith Bool List.
From Verif Require Import Base Prog Clock RalMemory.
Import ListNotations.
Open Scope Z_scope.

(* clock.rs:15 *)
Definition U32 : itype := mkIty false 32.
Definition u32 (x : Z) : Z := x mod 2 ^ 32.
(** Checked addition and subtraction of [u32]. *)
Definition add32 (a b : Z) : option Z := if a + b <? 2 ^ 32 then Some (a + b) else None.
Definition sub32 (a b : Z) : option Z := if b <=? a then Some (a - b) else None.
Definition mul32 (a b : Z) : option Z := if a * b <? 2 ^ 32 then Some (a * b) else None.

(* clock.rs:19 *)
Record tclock := mkTClock { tc_cur : Z; tc_hz : Z }.
(* clock.rs:23-30 *)
Definition tclock_new (hz : Z) : tclock := mkTClock hz hz.
Definition tclock_reset (c : tclock) : tclock := mkTClock (tc_hz c) (tc_hz c).
(* clock.rs:44-52; 2*self.clock_hz may overflow *)
Definition check_wrap_second (c : tclock) : option (tclock * bool) :=
  match mul32 2 (tc_hz c) with
  | None => None
  | Some h2 => Some (if h2 <? tc_cur c then (mkTClock (u32 (tc_cur c - tc_hz c)) (tc_hz c), true) else (c, false))
  end.
Definition tadd (c : tclock) (n : Z) : tclock := mkTClock (u32 (tc_cur c + n)) (tc_hz c).
Definition tadd' (c : tclock) (n : Z) : tclock * Z := let c := tadd c n in (c, tc_cur c).

(** The traits BusDevice (bus.rs:33-50) and Io of a device in the chain, [D] with everything behind it.  Break causes are [()]. *)
Record dev (D : Type) := mkDev {
  dv_reset : Z -> D -> option D;
  dv_frame_end : Z -> D -> option D;
  dv_m1 : Z -> D -> option D;
  dv_next_second : Z -> D -> option D;
  dv_read_io : Z -> Z -> D -> option (D * (Z * option Z));
  dv_write_io : Z -> Z -> Z -> D -> option (D * (option unit * option Z));
  dv_is_irq : Z -> D -> option (D * bool);
  dv_irq_data : Z -> Z -> D -> option (D * (Z * option Z));
  dv_reti : Z -> Z -> D -> option (D * option unit) }.
Arguments mkDev {D}. Arguments dv_reset {D}. Arguments dv_frame_end {D}. Arguments dv_m1 {D}. Arguments dv_next_second {D}.
Arguments dv_read_io {D}. Arguments dv_write_io {D}. Arguments dv_is_irq {D}. Arguments dv_irq_data {D}. Arguments dv_reti {D}.

(* bus.rs:203-251 Terminator *)
Definition terminator : dev unit :=
  mkDev (fun _ d => Some d) (fun _ d => Some d) (fun _ d => Some d) (fun _ d => Some d)
    (fun _ _ d => Some (d, (255, None))) (fun _ _ _ d => Some (d, (None, None)))
    (fun _ d => Some (d, false)) (fun _ _ d => Some (d, (255, None))) (fun _ _ d => Some (d, None)).

Section Bus.
Context {D : Type}.
(** bus.rs:63-68 Bus: the port bits, the devices and the memory; [None] after a panic. *)
Variables (mask bits : Z) (dv : dev D).
Definition bus : Type := option (ralmem * D).
Definition on_dev {A} (b : bus) (dflt : A) (f : D -> option (D * A)) : bus * A :=
  match b with
  | Some (m, d) => match f d with Some (d, x) => (Some (m, d), x) | None => (None, dflt) end
  | None => (None, dflt)
  end.
Definition on_dev' (b : bus) (f : D -> option D) : bus :=
  match b with
  | Some (m, d) => match f d with Some d => Some (m, d) | None => None end
  | None => None
  end.
Definition on_mem (b : bus) (f : ralmem -> option (ralmem * Z)) : bus * Z :=
  match b with
  | Some (m, d) => match f m with Some (m, v) => (Some (m, d), v) | None => (None, 0) end
  | None => (None, 0)
  end.
(* bus.rs:138-146 *)
Definition bus_write_io (b : bus) (p v t : Z) : bus * (option unit * option Z) :=
  if Z.land (u16 p) mask =? bits then (option_map (fun x => (write_ctrl (u8 v) (fst x), snd x)) b, (None, None))
  else on_dev b (None, None) (dv_write_io dv (u16 p) (u8 v) t).
(* bus.rs:149-156 *)
Definition bus_read_io (b : bus) (p t : Z) : bus * (Z * option Z) :=
  if Z.land (u16 p) mask =? bits then (b, (match b with Some (m, _) => read_ctrl m | None => 255 end, None))
  else on_dev b (255, None) (dv_read_io dv (u16 p) t).
(* bus.rs:181-184 *)
Definition bus_read_opcode (b : bus) (pc _ t : Z) : bus * Z := on_mem (on_dev' b (dv_m1 dv t)) (m_read_opcode (u16 pc)).
(** The bus as memory and devices of the CPU (bus.rs:128-201), with the clock (clock.rs:55-102) and the limit given to
    execute_with_limit. *)
Definition ral_host (limit : Z) : host Z unit unit bus tclock :=
  mkHost (fun c => limit <=? tc_cur c)
    (fun c _ => tadd' c IRQ_ACK_CYCLE_TS) (fun c _ n => tadd c n) (fun c _ => tadd' c M1_CYCLE_TS)
    (fun c _ => tadd' c MEMRW_CYCLE_TS) (fun c _ => tadd' c IO_CYCLE_TS) (fun c _ n => tadd c n) tc_cur
    bus_read_io bus_write_io
    (fun b t => on_dev b false (dv_is_irq dv t))
    (fun b pc t => on_dev b (255, None) (dv_irq_data dv (u16 pc) t))
    (fun b pc t => on_dev b None (dv_reti dv (u16 pc) t))
    (fun b a _ => on_mem b (fun m => option_map (fun v => (m, v)) (m_read_mem m (u16 a))))
    (fun b a _ => on_mem b (fun m => option_map (fun v => (m, v)) (m_read_mem16 m (u16 a))))
    bus_read_opcode
    (fun b a v _ => option_map (fun x => (m_write_mem (u16 a) (u8 v) (fst x), snd x)) b)
    (fun b a => on_mem b (fun m => option_map (fun v => (m, v)) (m_read_debug m (u16 a)))).
(* bus.rs:83-97 *)
Definition bus_reset (t : Z) (b : bus) : bus := on_dev' b (dv_reset dv t).
Definition bus_frame_end (t : Z) (b : bus) : bus := on_dev' b (dv_frame_end dv t).
Definition bus_next_second (delta : Z) (b : bus) : bus := on_dev' b (dv_next_second dv delta).
End Bus.
Arguments bus : clear implicits.
