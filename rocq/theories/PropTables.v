(** Properties C48 and C49: the tables of mnemonics and machine cycles that come with the crate. *)
From Coq Require Import ZArith Bool String List.
From Verif Require Import Base Parse Cpu Flavours Prog Trace Exec Range Clock Demo SpecLog SpecState SpecIsa StampRun IsaLink IsaRun
  Tables SpecTables TablesCycles TablesRun TablesReport.
Import ListNotations.
Open Scope string_scope.
Open Scope list_scope.
Open Scope Z_scope.

(** ** C48: what the debugger is told is what the tables of mnemonics say *)
Theorem C48_reports : forall Q TS WB RB (FL : Flavour Q) (c : cpu Q) rows row b1 b2 m,
  wf c -> halt c = false -> table = Some rows -> In row rows -> (forall a, byte (m a)) ->
  logs (TS:=TS) (WB:=WB) (RB:=RB) (execute_next FL true c) (fun _ l => undisturbed l -> read_from m l ->
    match expected (prefix c) (pc c) row [b1; b2] with
    | Report d => stored m (pc c) (from_opcode d) -> told l = [d]
    | IsPrefix p => m (pc c) = prefix_byte p -> told l = []
    | Panics => False
    end).
Proof. intros Q TS WB RB FL c rows row b1 b2 m Hw HH HT HI Hm. exact (wpl_logs _ _ (row_told_in FL c rows row b1 b2 m Hw HH HT HI Hm)). Qed.
(** The tables can be read, and every op-code is in them once. *)
Theorem C48_every_opcode : exists rows, table = Some rows /\ map (fun r => fst (fst r)) rows = op_codes /\ NoDup op_codes /\
  forall c d, byte c -> byte d -> In (if (c =? 0xCB) || (c =? 0xED) then [c; d] else [c]) op_codes.
Proof. exact every_opcode. Qed.
(** LD (IY-2),5 at FFFE: a row of the table, its report, and the one of a run. *)
Example C48_ex : let row := ([0x36], "LD (HL),nn", Some "LD (I?+dd),nn") in
  let d := mkDebug [0xFD; 0x36; 0xFE; 0x05] "LD" 0xFFFE (Some Yfd) (ADouble (DAddr (IndexAddr Yfd (Some (-2)))) (DImm8 5)) in
  match table with Some rows => find (fun r => codes_eqb (fst (fst r)) [0x36]) rows | None => None end = Some row /\
  expected (Some Yfd) 0xFFFF row [0xFE; 5] = Report d /\
  option_map (fun x => told (snd x))
    (runl (demo 0) (instruction NMOS true (Some Yfd) (nm 0xFFFE)) (poke 0xFFFE [0xFD; 0x36; 0xFE; 0x05] m0) 0) = Some [d].
Proof. cbv zeta. split; [|split]; vm_compute; reflexivity. Qed.
Definition C48_all := (@C48_reports, C48_every_opcode).
Print Assumptions C48_all.

(** ** C49: the machine cycles performed are those of the table of cycles *)
Theorem C49_cycles : forall Q T TS WB RB (FL : Flavour Q) (ch : chip T) absq, models FL ch absq ->
  forall px code text ic, In (code, text) (tested px) -> find_key text cycle_table = Some ic ->
  forall dbg (c : cpu Q), wf c -> prefix c = None -> halt c = false ->
  runs (TS:=TS) (WB:=WB) (RB:=RB) (instruction FL dbg px c) (fun _ bl cl => forall m,
    not_taken bl -> supplied m bl -> stored m (pc c) (opcode_bytes px code ic (m (w (pc c + 2)))) ->
    let a := abs absq c in let n := size px code ic in
    ticks cl = flat_map (tick_of px a m n) (performed a m ic) /\ accesses bl = flat_map (access_of px a m n) (performed a m ic)).
Proof. intros Q T TS WB RB FL ch absq OK. exact (instruction_cycles FL ch absq OK). Qed.
(** Every instruction of the tables of mnemonics has cycles, and every line of cycles belongs to one. *)
Theorem C49_has_cycles : forall px code text, In (code, text) (tested px) -> exists ic, find_key text cycle_table = Some ic.
Proof. exact has_cycles. Qed.
Theorem C49_used : forall text, In text (map fst cycle_table) -> exists px code, In (code, text) (tested px).
Proof. exact cycles_used. Qed.
(** DJNZ at FFFF with B = 2 and B = 1; the cycles of a run with B = 1. *)
Example C49_ex :
  let ic := mkIC [CM1 0; CX 1 (BIr 1); CMq (BPc 1); CSplit; CQr (BPc 1); CX 5 (BPc 1)] 0 false None (Some PB1) in
  let m := poke 0xFFFF [0x10; 0xFE] m0 in
  let c b := set_bc (256 * b) (nm 0xFFFF) in
  find_key "DJNZ ee" cycle_table = Some ic /\
  performed (abs q_modified (c 2)) m ic = ic_cycles ic /\
  option_map (fun x => (ticks (clocks (snd x)), accesses (buses (snd x)))) (runl (demo 0) (instruction NMOS false None (c 1)) m 0) =
    Some ([TM1 0xFFFF; TX 1 1; TMreq 0], [FetchAt 0xFFFF]).
Proof. cbv zeta. split; [|split]; vm_compute; reflexivity. Qed.
Definition C49_all := (@C49_cycles, C49_has_cycles, C49_used).
Print Assumptions C49_all.
