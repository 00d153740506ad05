(** The example program of the crate's documentation (src/lib.rs:117-169), which is also examples/embedded/embedded.rs (C64). *)
From Coq Require Import ZArith Bool List.
From Verif Require Import Base Prog Clock.
Import ListNotations.
Open Scope Z_scope.

(* lib.rs:145-152, embedded.rs:55-62 *)
Definition fib_rom : list Z := [0x21; 0x00; 0x00; 0x11; 0x01; 0x00; 0xEB; 0x19; 0x10; 0xFC; 0x76].
(** The bus (lib.rs:120-140, embedded.rs:30-50): the default methods of [Io] and [Memory] but for [read_debug].  Beyond the 11 bytes, where
    the program would panic, 0 is read. *)
Definition I32 : itype := mkIty true 32.
Definition doc_bus (lim : Z) : host Z unit unit unit Z :=
  ts_host I32 lim (fun _ => of_list fib_rom) (fun b _ _ _ => b) dflt_read_io dflt_write_io dflt_is_irq dflt_irq_data dflt_reti.

(** Fibonacci numbers. *)
Fixpoint fib (n : nat) : Z :=
  match n with
  | O => 0
  | S m => match m with O => 1 | S k => fib m + fib k end
  end.
(** Turns of the loop for a value of B. *)
Definition turns (n : Z) : Z := if n =? 0 then 256 else n.
