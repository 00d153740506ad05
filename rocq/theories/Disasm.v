(** Model of src/disasm.rs. *)
From Coq Require Import ZArith Bool String List.
From Verif Require Import Base Parse Cpu Flavours Prog Internal Instr Exec Clock Format.
Import ListNotations.
Open Scope Z_scope.

(* disasm.rs:11 *)
Definition U32 : itype := mkIty false 32.
(* disasm.rs:13-27: [Mem(base, slice)]; only [read_debug] is given, everything else has its default (so nothing is
   written, there is no interrupt, and the limit is of no concern to [execute_next]) *)
Definition mem_host : host Z unit unit (Z * list Z) Z :=
  ts_host U32 0 (fun b a => nth (Z.to_nat (u16 (a - fst b))) (snd b) 0xFF) (fun b _ _ _ => b)
    dflt_read_io dflt_write_io dflt_is_irq dflt_irq_data dflt_reti.

Section Disasm.
Context {Q : Type}.
Variable FL : Flavour Q.
Variable q0 : Q.     (* the default of the flavour *)
(** The caller's [debug] closure: its state [S], [Some e] for [Err(e)]. *)
Context {S E : Type}.
Variable debug : S -> CpuDebug -> S * option E.

(* disasm.rs:56-62: the closure given to [execute_next], on the variables [cursor] and [dbg] *)
Definition on_debug (x : nat * option CpuDebug) (d : CpuDebug) : nat * option CpuDebug :=
  let cursor := (fst x + List.length (dcode d))%nat in
  (match dprefix d with Some _ => (cursor - 1)%nat | None => cursor end, Some d).
(* disasm.rs:52-77: the while loop; [None]: not finished within [fuel] iterations (or stuck).  [dbg] is always None at the
   start of an iteration, being taken in the previous one. *)
Fixpoint disasm_loop (fuel : nat) (pc0 : Z) (memory : list Z) (c : cpu Q) (cursor : nat) (tsc : Z) (s : S) : option (S * option E) :=
  match fuel with
  | O => None
  | Datatypes.S fuel =>
    if (cursor <? List.length memory)%nat then
      let pc := u16 (pc0 + u16 (Z.of_nat cursor)) in
      match run mem_host (execute_next FL true (set_pc pc c)) (pc, skipn cursor memory) tsc with
      | None => None
      | Some ((c, _), _, tsc, ds) =>
          let (cursor, dbg) := fold_left on_debug ds (cursor, None) in
          if (List.length memory <? cursor)%nat then Some (s, None)
          else match dbg with
               | Some d => match debug s d with
                           | (s, Some e) => Some (s, Some e)
                           | (s, None) => disasm_loop fuel pc0 memory c cursor tsc s
                           end
               | None => if is_after_prefix c then disasm_loop fuel pc0 memory c (cursor + 1) tsc s
                         else disasm_loop fuel pc0 memory (reset FL c) cursor tsc s
               end
      end
    else Some (s, None)
  end.
(* disasm.rs:42-51 *)
Definition disasm_memory (fuel : nat) (pc : Z) (memory : list Z) (s : S) : option (S * option E) :=
  disasm_loop fuel pc memory (cpu_default q0) 0 0 s.
End Disasm.

Section Users.
Context {Q : Type}.
Variable FL : Flavour Q.
Variable q0 : Q.
(* disasm.rs:86-97 *)
Definition disasm_memory_once (fuel : nat) (pc : Z) (memory : list Z) : option (option CpuDebug) :=
  option_map fst (disasm_memory FL q0 (fun _ d => (Some d, Some tt)) fuel pc memory None).
(* disasm.rs:101-110, the writer being a string that grows (disasm.rs:114-119: the standard output). *)
Definition newline : string := String (Ascii.ascii_of_nat 10) EmptyString.
Definition disasm_memory_write_text (fuel : nat) (pc : Z) (memory : list Z) (f : string) : option (string * option unit) :=
  disasm_memory FL q0 (fun f d => match fmt_debug LHex (plain false) d with
                                  | Some s => ((f ++ s ++ newline)%string, None) | None => (f, Some tt) end) fuel pc memory f.
End Users.
