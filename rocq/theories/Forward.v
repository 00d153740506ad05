(** Model of src/macros.rs: hosts whose methods are forwarded to another host, and of the default methods of [Io] and
    [Memory] (src/host.rs:244-312, 332-386), which serve for the methods not forwarded. *)
From Coq Require Import ZArith Bool List.
From Verif Require Import Base Flags Parse Prog.
Import ListNotations.
Open Scope Z_scope.

Inductive cmeth :=
| Is_past_limit | Add_irq | Add_no_mreq | Add_m1 | Add_mreq | Add_io | Add_wait_states | As_timestamp.
Inductive bmeth :=
| Write_io | Read_io | Is_irq | Irq_data | Reti_ | Read_opcode | Read_mem | Read_mem16 | Write_mem | Read_debug.
(** The arms [@], [@ref], [@mut] of the macros. *)
Inductive arm := All | Ref | Mut.
(* macros.rs:175-203 *)
Definition clock_arm (a : arm) : list cmeth :=
  match a with
  | All => [Is_past_limit; Add_irq; Add_no_mreq; Add_m1; Add_mreq; Add_io; Add_wait_states; As_timestamp]
  | Ref => [Is_past_limit; As_timestamp]
  | Mut => [Add_irq; Add_no_mreq; Add_m1; Add_mreq; Add_io; Add_wait_states]
  end.
(* macros.rs:285-289 *)
Definition io_all : list bmeth := [Write_io; Read_io; Is_irq; Irq_data; Reti_].
(* macros.rs:352-368 *)
Definition memory_arm (a : arm) : list bmeth :=
  match a with
  | All => [Read_opcode; Read_mem; Read_mem16; Write_mem; Read_debug]
  | Ref => [Read_mem; Read_mem16; Read_debug]
  | Mut => [Read_opcode; Write_mem]
  end.
Definition bmeth_eqb (a b : bmeth) : bool :=
  match a, b with
  | Write_io, Write_io | Read_io, Read_io | Is_irq, Is_irq | Irq_data, Irq_data | Reti_, Reti_ | Read_opcode, Read_opcode
  | Read_mem, Read_mem | Read_mem16, Read_mem16 | Write_mem, Write_mem | Read_debug, Read_debug => true
  | _, _ => false
  end.

(** The expression [|this| fwd] of the macros: where the other host is found in the wrapper. *)
Record place (W B : Type) := Place { taken : W -> B; put_back : B -> W -> W }.
Arguments Place {W B}. Arguments taken {W B}. Arguments put_back {W B}.
(** Calling a method there. *)
Definition call {W B R} (l : place W B) (f : B -> B * R) (w : W) : W * R :=
  let (b, r) := f (taken l w) in (put_back l b w, r).
Definition call_ {W B} (l : place W B) (f : B -> B) (w : W) : W := put_back l (f (taken l w)) w.

(** A type with [Clock] forwarded to [k], and [Io] and [Memory] having the methods [ms] forwarded to [l] and no others:
    macros.rs:213-275 (Clock), 299-341 (Io), 378-416 (Memory); host.rs:244-246, 263-265, 274-276, 292-294, 310-312,
    332-334, 346-348, 364-366, 375, 384-386. *)
Definition wrapper {TS WB RB B C W V} (l : place W B) (k : place V C) (ms : list bmeth) (h : host TS WB RB B C)
  : host TS WB RB W V :=
  let fwd m := existsb (bmeth_eqb m) ms in
  let read_debug w a := if fwd Read_debug then call l (fun b => h_read_debug h b a) w else (w, 255) in
  mkHost
    (fun v => h_is_past_limit h (taken k v))
    (fun v a => call k (fun c => h_add_irq h c a) v)
    (fun v a n => call_ k (fun c => h_add_no_mreq h c a n) v)
    (fun v a => call k (fun c => h_add_m1 h c a) v)
    (fun v a => call k (fun c => h_add_mreq h c a) v)
    (fun v a => call k (fun c => h_add_io h c a) v)
    (fun v a n => call_ k (fun c => h_add_wait h c a n) v)
    (fun v => h_as_ts h (taken k v))
    (fun w p t => if fwd Read_io then call l (fun b => h_read_io h b p t) w else (w, (255, None)))
    (fun w p d t => if fwd Write_io then call l (fun b => h_write_io h b p d t) w else (w, (None, None)))
    (fun w t => if fwd Is_irq then call l (fun b => h_is_irq h b t) w else (w, false))
    (fun w a t => if fwd Irq_data then call l (fun b => h_irq_data h b a t) w else (w, (0xFF, None)))
    (fun w a t => if fwd Reti_ then call l (fun b => h_reti h b a t) w else (w, None))
    (fun w a t => if fwd Read_mem then call l (fun b => h_read_mem h b a t) w else read_debug w a)
    (fun w a t => if fwd Read_mem16 then call l (fun b => h_read_mem16 h b a t) w
                  else let (w, lo) := read_debug w a in let (w, hi) := read_debug w (u16 (a + 1)) in (w, u8 lo + 256 * u8 hi))
    (fun w a i t => if fwd Read_opcode then call l (fun b => h_read_opcode h b a i t) w else read_debug w a)
    (fun w a v t => if fwd Write_mem then call_ l (fun b => h_write_mem h b a v t) w else w)
    read_debug.

(** The wrapper of the documentation, macros.rs:38-83: [DebugBus] remembers the data of the last interrupt. *)
Definition bus {B R} : place (B * R) B := Place fst (fun b w => (b, snd w)).
Definition itself {C} : place C C := Place (fun c => c) (fun c _ => c).
Definition with_irq_data {TS WB RB W V} (f : W -> Z -> TS -> W * (Z * option Z)) (h : host TS WB RB W V) : host TS WB RB W V :=
  mkHost (h_is_past_limit h) (h_add_irq h) (h_add_no_mreq h) (h_add_m1 h) (h_add_mreq h) (h_add_io h) (h_add_wait h) (h_as_ts h)
    (h_read_io h) (h_write_io h) (h_is_irq h) f (h_reti h) (h_read_mem h) (h_read_mem16 h) (h_read_opcode h) (h_write_mem h)
    (h_read_debug h).
Definition debug_bus {TS WB RB B C} (h : host TS WB RB B C) : host TS WB RB (B * option Z) C :=
  with_irq_data (fun w pc t => let (b, r) := h_irq_data h (fst w) pc t in ((b, Some (u8 (fst r))), r))
    (wrapper bus itself ([Write_io; Read_io; Is_irq; Reti_] ++ memory_arm Ref ++ memory_arm Mut) h).
