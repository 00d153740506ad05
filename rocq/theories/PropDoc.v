(** Property C64: the example program of the documentation. *)
From Coq Require Import ZArith Bool List Lia.
From Verif Require Import Base Parse Cpu Flavours Prog Trace Exec Clock Demo SpecIsa SpecCycles SpecProgram IsaLink IsaRun SpecDoc DocProofs.
Import ListNotations.
Open Scope Z_scope.

(** On every chip, with a debugger or without, for every value of B: the loop of the example ends with HALT, HL holds the Fibonacci number
    (its low 16 bits), the clock shows what the example says, and only the 11 bytes of the program were read. *)
Theorem C64_fibonacci : forall Q T (FL : Flavour Q) (ch : chip T) absq, models FL ch absq -> forall dbg lim c n, 0 <= n < 256 ->
  exists fuel c' l, runl (doc_bus lim) (run_to_halt FL dbg fuel (set_reg B None n (reset FL c))) tt 0 = Some (Some c', tt, 10 + 10 + turns n * (4 + 11 + 13) - 5 + 4, l) /\
    halt c' = true /\ get_reg16 SHL c' = fib (Z.to_nat (turns n)) mod 65536 /\ in_bounds 11 11 (buses l) /\ outs_of (buses l) = [].
Proof. intros Q T FL ch absq M. exact (doc_runs FL ch absq M). Qed.
(** As in the example: up to 24 the number fits in HL. *)
Theorem C64_exact : forall Q T (FL : Flavour Q) (ch : chip T) absq, models FL ch absq -> forall dbg lim c n, 1 <= n <= 24 ->
  exists fuel c' l, runl (doc_bus lim) (run_to_halt FL dbg fuel (set_reg B None n (reset FL c))) tt 0 = Some (Some c', tt, 10 + 10 + n * (4 + 11 + 13) - 5 + 4, l) /\
    get_reg16 SHL c' = fib (Z.to_nat n).
Proof. intros Q T FL ch absq M. exact (doc_exact FL ch absq M). Qed.
Example C64_example : fib 24 = 46368 /\ fib 25 = 75025 /\
  match runl (doc_bus 0) (run_to_halt NMOS true 99 (set_reg B None 24 (reset NMOS (nm 0x1234)))) tt 0 with
  | Some (Some c, _, k, _) => (get_reg16 SHL c, k) = (46368, 10 + 10 + 24 * (4 + 11 + 13) - 5 + 4) | _ => False end.
Proof. vm_compute. auto. Qed.
Definition C64_all := (@C64_fibonacci, @C64_exact).
Print Assumptions C64_all.
