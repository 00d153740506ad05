(** Model of the execution entry points: src/z80.rs:409-611, src/z80/internal.rs:134-193. *)
From Coq Require Import ZArith Bool List String.
From Verif Require Import Base Flags Ops Parse Cpu Prog Internal Instr.
Import ListNotations.
Open Scope Z_scope.

(* host.rs:389-399 *)
Inductive break_cause (WB RB : Type) := BHalt | BWriteIo (w : WB) | BReti (r : RB).
Arguments BHalt {WB RB}. Arguments BWriteIo {WB RB}. Arguments BReti {WB RB}.
(* host.rs:401-402: [Result<(), BreakCause>], [None] is [Ok(())] *)
Definition result (WB RB : Type) := option (break_cause WB RB).

Section Exec.
Context {Q TS WB RB : Type}.
Variable FL : Flavour Q.

Notation cpu := (cpu Q).
Notation prog := (prog TS WB RB).
Notation result := (result WB RB).
Notation reason := (exit_reason WB RB).

(** z80.rs:444-446: the locals are loaded from the struct ... *)
Definition load_st (c : cpu) : st := mkSt c (get_flags c) (pc c) (prefix c).
(** ... and written back, z80.rs:453-455. *)
Definition store_st (s : st) : cpu := set_prefix (spx s) (set_pc (spc s) (set_flags (sfl s) (sc s))).

(* z80.rs:456-461 *)
Definition to_result (r : option reason) : result :=
  match r with
  | Some Halt => Some BHalt
  | Some (WriteIoR w) => Some (BWriteIo w)
  | Some (RetiR x) => Some (BReti x)
  | _ => None
  end.

(* z80.rs:437-462 *)
Definition execute_instruction (dbg : bool) (code : Z) (c : cpu) : prog (cpu * result) :=
  let c := set_halt false (set_last_ei false c) in
  pbind (exec_code FL dbg code (load_st c))
        (fun x => Ret (store_st (fst x), to_result (snd x))).

(** Run an [M] action that only uses the CPU struct. *)
Definition on_cpu {A} (m : M Q TS WB RB A) (c : cpu) : prog (cpu * A) :=
  pbind (m (load_st c)) (fun x => Ret (sc (fst x), snd x)).

Definition RST_38H_OPCODE : Z := 0xFF.   (* lib.rs:282 *)
Definition JP_OPCODE : Z := 0xC3.        (* lib.rs:246 *)
Definition NMI_RESTART : Z := 0x66.      (* lib.rs:187 *)

(* internal.rs:134-171 *)
Definition irq_no_check (dbg : bool) (c : cpu) : prog (cpu * result) :=
  let c := disable_interrupts c in
  let c := inc_r c in
  let p := pc c in
  let '(c, p) := if halt c then let p := u16 (p + 1) in (set_pc p (set_halt false c), p) else (c, p) in
  AddIrq p (fun ts =>
  IrqData p ts (fun vector ws =>
  let k :=
    match im c with
    | Mode0 => execute_instruction dbg vector c
    | Mode1 => execute_instruction dbg RST_38H_OPCODE c
    | Mode2 =>
        let ir := get_ir c in
        AddNoMreq ir 1
        (pbind (on_cpu (push16 p) c) (fun x =>
         let c := fst x in
         let vaddr := Z.lor (Z.land ir 0xFF00) vector in
         execute_instruction dbg JP_OPCODE (set_pc vaddr c)))
    end in
  match ws with Some n => AddWait p n k | None => k end)).

(* internal.rs:173-193 *)
Definition nmi_no_check (c : cpu) : prog cpu :=
  let c := set_last_ei false c in
  let c := set_iffs false (iff2 c) c in
  let c := inc_r c in
  let p := pc c in
  let '(c, p) := if halt c then (set_halt false c, u16 (p + 1)) else (c, p) in
  AddM1 p (fun _ =>
  AddNoMreq (get_ir c) 1
  (pbind (on_cpu (push16 p) c) (fun x =>
   let c := fst x in
   let c := set_flavour (begin_instruction FL (flavour c)) c in
   Ret (set_pc NMI_RESTART c)))).

(* z80.rs:409-420; [None]: not accepted *)
Definition irq (dbg : bool) (c : cpu) : prog (cpu * option result) :=
  if is_irq_allowed c then pbind (irq_no_check dbg c) (fun x => Ret (fst x, Some (snd x)))
  else Ret (c, None).

(* z80.rs:422-433 *)
Definition nmi (c : cpu) : prog (cpu * bool) :=
  if is_int_allowed (prefix c) (last_ei c) then pbind (nmi_no_check c) (fun c' => Ret (c', true))
  else Ret (c, false).

(** Continuation after a [cond && control.is_irq(tsc.as_timestamp())] test. *)
Definition test_irq {A} (allowed : bool) (k : bool -> prog A) : prog A :=
  if allowed then AsTs (fun t => IsIrq t k) else k false.

(* z80.rs:464-484 *)
Definition execute_next (dbg : bool) (c : cpu) : prog (cpu * result) :=
  test_irq (is_irq_allowed c) (fun q =>
  if q then irq_no_check dbg c
  else if halt c then AddM1 (pc c) (fun _ => Ret (inc_r c, None))
  else
    pbind (on_cpu (fetch_next_opcode (pc c)) c) (fun x =>
    let c := fst x in
    execute_instruction dbg (snd (snd x)) (set_pc (fst (snd x)) c))).

(** One [execute_next_instruction!] (opcodes.rs:191-199) of the loop in z80.rs:585-587: fetch and
    execute with the locals kept, no debugger.  [last_ei] and [halt] are not reset. *)
Definition loop_instr (s : st) : prog (st * option reason) :=
  pbind (fetch_next_opcode (spc s) s) (fun x =>
  let s := fst x in
  exec_code FL false (snd (snd x)) (mkSt (sc s) (sfl s) (fst (snd x)) (spx s))).

(** z80.rs:527-568 + 574-611.  The loop of [execute_with_limit], the loop and the inner
    ['main] loop of [execute_with_limit_loop] are fused into one recursion; the locals are reloaded
    ([load_st]) where [execute_with_limit_loop] is re-entered.  [fuel] bounds the number of executed
    instructions; [None] is returned when it is exhausted. *)
Fixpoint ewl_loop (fuel : nat) (s : st) : prog (option (cpu * result)) :=
  match fuel with
  | O => Ret None
  | S n =>
      pbind (loop_instr s) (fun x =>
      let s := fst x in
      match snd x with
      | None =>
          IsPastLimit (fun past =>
          if past then Ret (Some (store_st s, None))                   (* LimitReached *)
          else
            test_irq (is_int_allowed (spx s) false && iff1 (sc s)) (fun q =>
            if q then                                                  (* Irq *)
              pbind (irq_no_check false (store_st s)) (fun y =>
              match snd y with
              | None => IsPastLimit (fun past =>
                          if past then Ret (Some (fst y, None)) else ewl_loop n (load_st (fst y)))
              | Some e => Ret (Some (fst y, Some e))
              end)
            else ewl_loop n s))
      | Some EnableInt =>
          IsPastLimit (fun past =>
          if past then Ret (Some (store_st s, None))
          else ewl_loop n (mkSt (set_last_ei false (sc s)) (sfl s) (spc s) (spx s)))
      | Some r => Ret (Some (store_st s, to_result (Some r)))
      end)
  end.

(** z80.rs:496-506: the loop idling in the halted state.  [inl c]: returned [Ok]; [inr c]: broke out. *)
Fixpoint ewl_halted (fuel : nat) (c : cpu) : prog (option (cpu + cpu)) :=
  match fuel with
  | O => Ret None
  | S n =>
      IsPastLimit (fun past =>
      if past then Ret (Some (inl c))
      else
        test_irq (iff1 c) (fun q =>
        if q then Ret (Some (inr c))
        else AddM1 (pc c) (fun _ => ewl_halted n (inc_r c))))
  end.

(** z80.rs:512-521 *)
Definition ewl_start (fuel : nat) (c : cpu) : prog (option (cpu * result)) :=
  if last_ei c then ewl_loop fuel (load_st (set_last_ei false c))
  else
    test_irq (is_int_allowed (prefix c) false && iff1 c) (fun q =>
    if q then
      pbind (irq_no_check false c) (fun y =>
      match snd y with
      | None => IsPastLimit (fun past =>
                  if past then Ret (Some (fst y, None)) else ewl_loop fuel (load_st (fst y)))
      | Some e => Ret (Some (fst y, Some e))
      end)
    else ewl_loop fuel (load_st c)).

(** z80.rs:486-569; [da]: are [debug_assert]ions compiled in? *)
Definition execute_with_limit (da : bool) (fuel : nat) (c : cpu) : prog (option (cpu * result)) :=
  if halt c then
    if da && negb (is_int_allowed (prefix c) (last_ei c)) then Stuck
    else
      pbind (ewl_halted fuel c) (fun x =>
      match x with
      | None => Ret None
      | Some (inl c) => Ret (Some (c, None))
      | Some (inr c) => ewl_start fuel c
      end)
  else
    IsPastLimit (fun past => if past then Ret (Some (c, None)) else ewl_start fuel c).
End Exec.
