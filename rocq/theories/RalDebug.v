(** The debugger of the example computer RAL 1243 (examples/ral1243/src/debug.rs).

    As in RalRunner.v, [Panicked] is any panic, [More] stands for too little fuel.  The texts written to the terminal (debug.rs:24-157) and
    the messages between the threads are not modelled. *)
From Coq Require Import ZArith Bool String List.
From Verif Require Import Base Parse Cpu Prog Internal Exec Opconsts Forward Disasm RalMemory RalBus RalRunner.
Import ListNotations.
Open Scope list_scope.
Open Scope Z_scope.

Definition oseq {A B} (x : outcome A) (f : A -> outcome B) : outcome B := match x with Panicked => Panicked | More => More | Done a => f a end.
(** [saturating_sub] of [u32]. *)
Definition sat_sub (a b : Z) : Z := Z.max 0 (a - b).

(* debug.rs:430-441 *)
Definition prefix_debug (pfx : Prefix) (pc : Z) : CpuDebug :=
  mkDebug [prefix_to_code pfx] "NOP*" pc (Some pfx) (ASingle (DReg16 (Some pfx) HL)).
(* debug.rs:444-454; [remove] panics if there is nothing to remove *)
Definition irq_debug_update {Q} (data pc : Z) (c : cpu Q) (dbg : option CpuDebug) : option (option CpuDebug) :=
  match im c with
  | Mode2 =>
      match dbg with
      | Some deb => match dcode deb with
          | _ :: code => Some (Some (mkDebug code "IRQ#" pc (dprefix deb) (ASingle (DImm16 (mk16 (get_i c) data)))))
          | [] => None
          end
      | None => Some None
      end
  | _ => Some dbg
  end.
(* debug.rs:457-467; [None]: index out of range *)
Definition was_just_a_call {Q} (deb : CpuDebug) (c : cpu Q) : option bool :=
  match dcode deb with
  | [] => None
  | op :: _ =>
      Some (if op =? CALL_OPCODE then true
            else if Z.land op RST_OPMASK =? RST_OPBASE then true
            else if Z.land op CALL_CC_OPMASK =? CALL_CC_OPBASE then is_satisfied (cond_from op) (get_flags c)
            else false)
  end.
(** The conditions of debug.rs:332-337 and debug.rs:473-475. *)
Definition is_ret (code : list Z) : option bool :=
  match code with
  | [] => None
  | op :: rest =>
      if op =? RET_OPCODE then Some true
      else if op =? ED_PREFIX then match rest with [] => None | op2 :: _ => Some ((Z.land op2 RETN_OP2_MASK =? RETN_OP2_BASE) || (Z.land op RET_CC_OPMASK =? RET_CC_OPBASE)) end
      else Some (Z.land op RET_CC_OPMASK =? RET_CC_OPBASE)
  end.
(** RET cc with a condition that is not met: debug.rs:352-354 and debug.rs:475-477. *)
Definition not_taken {Q} (code : list Z) (c : cpu Q) : bool :=
  match code with
  | [] => false
  | op :: _ => (Z.land op RET_CC_OPMASK =? RET_CC_OPBASE) && negb (is_satisfied (cond_from op) (get_flags c))
  end.
(* debug.rs:470-480 *)
Definition was_just_a_ret {Q} (deb : CpuDebug) (c : cpu Q) : option bool :=
  option_map (fun r => r && negb (not_taken (dcode deb) c)) (is_ret (dcode deb)).

Section Debugger.
Context {Q D : Type}.
Variables (FL : Flavour Q) (mask bits : Z) (dv : dev D).
Notation world := (world Q D).
Notation H := (ral_host mask bits dv 0).
(* debug.rs:418-426 *)
Definition check_wrap_next_second (w : world) : outcome world :=
  let r := w_run w in
  checked (check_wrap_second (rn_clock r)) (fun cw =>
  let (k, wrapped) := cw in
  checked (if wrapped then sub32 (rn_limit r) (tc_hz k) else Some (rn_limit r)) (fun limit =>
  with_bus (if wrapped then bus_next_second dv (tc_hz k) (w_bus w) else w_bus w) (fun b =>
  Done (mkWorld (mkRunner k limit (rn_frame r)) (w_cpu w) b)))).
(** [execute_next] with a closure for the reports, through a [DBus] (debug.rs:159-184) holding [s], and the panic on a break request:
    debug.rs:235-240, 288-293. *)
Definition exec_dbus (s : option Z) (w : world) : outcome (world * option Z * list CpuDebug) :=
  let r := w_run w in
  match run (debug_bus H) (execute_next FL true (w_cpu w)) (w_bus w, s) (rn_clock r) with
  | None => Panicked
  | Some ((c, res), (b, s), k, ds) =>
      with_bus b (fun b => match res with
        | None | Some BHalt => Done (mkWorld (mkRunner k (rn_limit r) (rn_frame r)) c b, s, ds)
        | Some _ => Panicked
        end)
  end.
(** Likewise on the bus itself, with a closure or without: debug.rs:340-344, 393-396. *)
Definition exec_bus (dbg : bool) (w : world) : outcome (world * list CpuDebug) :=
  let r := w_run w in
  match run H (execute_next FL dbg (w_cpu w)) (w_bus w) (rn_clock r) with
  | None => Panicked
  | Some ((c, res), b, k, ds) =>
      with_bus b (fun b => match res with
        | None | Some BHalt => Done (mkWorld (mkRunner k (rn_limit r) (rn_frame r)) c b, ds)
        | Some _ => Panicked
        end)
  end.
Definition past (limit : Z) (w : world) : bool := limit <=? tc_cur (rn_clock (w_run w)).
(** What is done past the limit: debug.rs:243-246, 295-297, 346-348, 399-401. *)
Definition end_frame (limit : Z) (w : world) : outcome world :=
  with_bus (bus_frame_end dv (tc_cur (rn_clock (w_run w))) (w_bus w)) (fun b =>
    Done (mkWorld (mkRunner (rn_clock (w_run w)) limit (rn_frame (w_run w))) (w_cpu w) b)).
(** The closure [|deb| { dbg = Some(deb) }]. *)
Definition last_report (ds : list CpuDebug) (dbg : option CpuDebug) : option CpuDebug := fold_left (fun _ d => Some d) ds dbg.
Definition elapsed (start : Z) (w : world) : Z := sat_sub (tc_cur (rn_clock (w_run w))) start.
Definition is_none {A} (x : option A) : bool := match x with None => true | _ => false end.

(** The loop at debug.rs:234-261, at most [n] times. *)
Fixpoint step_loop (n : nat) (limit : Z) (s : option Z) (dbg : option CpuDebug) (pfx : option Prefix) (p : Z) (w : world)
  : outcome (world * option Z * option CpuDebug) :=
  match n with
  | O => More
  | S n =>
      oseq (exec_dbus s w) (fun x => let '(w, s, ds) := x in
      let dbg := last_report ds dbg in
      oseq (if past limit w then checked (add32 limit (rn_frame (w_run w))) (fun l2 => oseq (end_frame limit w) (fun w => Done (w, l2))) else Done (w, limit)) (fun y =>
      let (w, limit) := y in
      if negb (is_none dbg) || halt (w_cpu w) then Done (w, s, dbg)
      else if is_none (prefix (w_cpu w)) then Panicked
      else match pfx with
        | Some px => Done (w, s, Some (prefix_debug px p))
        | None => step_loop n limit s dbg (prefix (w_cpu w)) p w
        end))
  end.
(* debug.rs:222-266 *)
Definition debug_step (n : nat) (w : world) : outcome (world * (option CpuDebug * Z)) :=
  oseq (check_wrap_next_second w) (fun w =>
  checked (add32 (rn_limit (w_run w)) (rn_frame (w_run w))) (fun limit =>
  let start := tc_cur (rn_clock (w_run w)) in
  let p := pc (w_cpu w) in
  oseq (step_loop n limit None None (prefix (w_cpu w)) p w) (fun x =>
  let '(w, s, dbg) := x in
  checked (match s with Some data => irq_debug_update data p (w_cpu w) dbg | None => Some dbg end) (fun dbg =>
  Done (w, (dbg, elapsed start w)))))).

(** The loop at debug.rs:287-307. *)
Fixpoint int_loop (n : nat) (limit start : Z) (s : option Z) (dbg : option CpuDebug) (w : world) : outcome (world * (option CpuDebug * Z)) :=
  match n with
  | O => More
  | S n =>
      let p := pc (w_cpu w) in
      oseq (exec_dbus s w) (fun x => let '(w, s, ds) := x in
      let dbg := last_report ds dbg in
      oseq (if past limit w then end_frame limit w else Done w) (fun w' =>
      match s with
      | None => if past limit w then Done (w', (None, elapsed start w')) else int_loop n limit start s dbg w'
      | Some data => checked (irq_debug_update data p (w_cpu w') dbg) (fun dbg => Done (w', (dbg, elapsed start w')))
      end))
  end.
(* debug.rs:272-309 *)
Definition debug_runto_int (n : nat) (w : world) : outcome (world * (option CpuDebug * Z)) :=
  oseq (check_wrap_next_second w) (fun w =>
  checked (add32 (rn_limit (w_run w)) (rn_frame (w_run w))) (fun limit =>
  int_loop n limit (tc_cur (rn_clock (w_run w))) None None w)).

(** The closure of debug.rs:331-339. *)
Definition ret_report (ds : list CpuDebug) (dbg : option CpuDebug) : option (option CpuDebug) :=
  fold_left (fun acc d => match acc, is_ret (dcode d) with
    | Some dbg, Some r => Some (if r then Some d else dbg)
    | _, _ => None
    end) ds (Some dbg).
(** The loop at debug.rs:330-362. *)
Fixpoint ret_loop (n : nat) (limit start : Z) (dbg : option CpuDebug) (w : world) : outcome (world * (option CpuDebug * Z)) :=
  match n with
  | O => More
  | S n =>
      oseq (exec_bus true w) (fun x => let '(w, ds) := x in
      checked (ret_report ds dbg) (fun dbg =>
      oseq (if past limit w then end_frame limit w else Done w) (fun w' =>
      let dbg' := match dbg with Some deb => if not_taken (dcode deb) (w_cpu w') then None else dbg | None => None end in
      if past limit w || negb (is_none dbg') then Done (w', (dbg', elapsed start w')) else ret_loop n limit start dbg' w')))
  end.
(* debug.rs:315-364 *)
Definition debug_runto_ret (n : nat) (w : world) : outcome (world * (option CpuDebug * Z)) :=
  oseq (check_wrap_next_second w) (fun w =>
  checked (add32 (rn_limit (w_run w)) (rn_frame (w_run w))) (fun limit =>
  ret_loop n limit (tc_cur (rn_clock (w_run w))) None w)).

(** [binary_search] of a slice: the index of an element, or where it would be. *)
Variable search : list Z -> Z -> nat + nat.
(** The loops at debug.rs:386-415.  [next_bkpt]: in the inner loop, [None]: about to search. *)
Fixpoint brkpt_loop (n : nat) (limit start : Z) (brkpts : list Z) (next_bkpt : option Z) (p : Z) (w : world) : outcome (world * (option nat * Z)) :=
  match n with
  | O => More
  | S n =>
      match next_bkpt with
      | None =>
          match search brkpts p with
          | inl i => Done (w, (Some i, elapsed start w))
          | inr i => brkpt_loop n limit start brkpts (Some (nth i brkpts 0xFFFF)) p w
          end
      | Some next =>
          oseq (exec_bus false w) (fun x => let (w, _) := x in
          let next_pc := pc (w_cpu w) in
          if past limit w then
            oseq (end_frame limit w) (fun w =>
            if next_pc =? next then brkpt_loop n limit start brkpts None next_pc w else Done (w, (None, elapsed start w)))
          else if (next <=? next_pc) || (next_pc <? p) then brkpt_loop n limit start brkpts None next_pc w
          else brkpt_loop n limit start brkpts (Some next) next_pc w)
      end
  end.
(* debug.rs:371-416 *)
Definition run_until_brkpt (n : nat) (brkpts : list Z) (w : world) : outcome (world * (option nat * Z)) :=
  oseq (check_wrap_next_second w) (fun w =>
  checked (add32 (rn_limit (w_run w)) (rn_frame (w_run w))) (fun limit =>
  brkpt_loop n limit (tc_cur (rn_clock (w_run w))) brkpts None (pc (w_cpu w)) w)).

(** The bytes that [read_debug] gives at [p], [n] of them. *)
Fixpoint peek (m : ralmem) (p : Z) (n : nat) : option (list Z) :=
  match n with
  | O => Some []
  | S n => match m_read_debug m (u16 p), peek m (p + 1) n with Some v, Some l => Some (u8 v :: l) | _, _ => None end
  end.
(** debug.rs:196-217, with the fuel for disasm_memory_once and the flavour's default state.  The capacity of [code] is 4
    (src/cpu/debug.rs:12). *)
Definition debug_preview (fuel : nat) (q0 : Q) (w : world) : outcome CpuDebug :=
  let c := w_cpu w in
  let '(first, p) := match prefix c with Some px => ([prefix_to_code px], u16 (pc c - 1)) | None => ([], pc c) end in
  let start := List.length first in
  checked (w_bus w) (fun b =>
  checked (peek (fst b) (p + Z.of_nat start) (4 - start)) (fun l =>
  match disasm_memory_once FL q0 fuel p (first ++ l) with
  | None => More
  | Some d => Done (match d with Some d => d | None => mkDebug (first ++ l) "" p (prefix c) ANone end)
  end)).

End Debugger.
