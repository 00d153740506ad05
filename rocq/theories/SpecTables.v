(** The tables of mnemonics and machine cycles that come with the crate ([Tables]), read as its tests read them
    (tests/mnemonics_test.rs, tests/cycles_test.rs), and what they say about every state, address and operand (C48, C49).

    Where a test draws operands, registers and memory at random and runs from address 0, the operands, registers, memory
    and address are variables here. *)
From Coq Require Import ZArith Bool String Ascii List.
From Verif Require Import Base Parse Cpu Prog Trace Exec SpecState SpecIsa Tables.
Import ListNotations.
Open Scope string_scope.
Open Scope list_scope.
Open Scope Z_scope.

(** ** Text *)
(** [str::split] at a character; [str::lines]; [split_ascii_whitespace]. *)
Fixpoint split (sep : ascii) (s : string) : list string :=
  match s with
  | "" => [""]
  | String c s => if Ascii.eqb c sep then "" :: split sep s
                  else match split sep s with w :: l => String c w :: l | [] => [] end
  end.
Definition nonempty (s : string) : bool := match s with "" => false | _ => true end.
Definition newline : ascii := "010"%char.
Definition lines (s : string) : list string :=
  let l := split newline s in if nonempty (List.last l "") then l else removelast l.
Definition words (s : string) : list string := filter nonempty (split " "%char s).
(** What follows prefix [p] of [s]. *)
Fixpoint after (p s : string) : option string :=
  match p, s with
  | "", _ => Some s
  | String a p, String b s => if Ascii.eqb a b then after p s else None
  | _, "" => None
  end.
Definition starts (p s : string) : bool := match after p s with Some _ => true | None => false end.
Fixpoint contains (p s : string) : bool :=
  starts p s || match s with "" => false | String _ s => contains p s end.
(** Number of disjoint occurrences of "nn". *)
Fixpoint count_nn (s : string) : nat :=
  match s with
  | String "n" (String "n" s) => Datatypes.S (count_nn s)
  | String _ s => count_nn s
  | "" => O
  end.
Definition digit (c : ascii) : option Z :=
  let n := Z.of_nat (nat_of_ascii c) in
  if (48 <=? n) && (n <=? 57) then Some (n - 48) else if (97 <=? n) && (n <=? 102) then Some (n - 87) else None.
Fixpoint number (radix acc : Z) (s : string) : option Z :=
  match s with
  | "" => Some acc
  | String c s => match digit c with Some d => if d <? radix then number radix (radix * acc + d) s else None | None => None end
  end.
Definition num (radix : Z) (s : string) : option Z := match s with "" => None | _ => number radix 0 s end.
Fixpoint all {X} (l : list (option X)) : option (list X) :=
  match l with
  | [] => Some []
  | Some x :: l => option_map (cons x) (all l)
  | None :: _ => None
  end.
Definition find_key {X} (k : string) (l : list (string * X)) : option X :=
  option_map snd (find (fun p => String.eqb k (fst p)) l).

(** A line of the tables of mnemonics: "01 LD BC,nnnn" or "cb,7e BIT 7,(HL)" (cycles_test.rs:695-699). *)
Definition entry (line : string) : option (list Z * string) :=
  match split " "%char line with
  | c :: l => match all (map (num 16) (split ","%char c)) with
              | Some code => Some (code, String.concat " " l) | None => None end
  | [] => None
  end.
Definition entries (s : string) : list (list Z * string) :=
  match all (map entry (lines s)) with Some l => l | None => [] end.

(** ** The expected report (mnemonics_test.rs:54-169) *)
Inductive parsed := Panics | IsPrefix (p : Prefix) | Report (d : CpuDebug).
Definition reg8_of : list (string * Reg8) := [("A", A); ("B", B); ("C", C); ("D", D); ("E", E); ("H", H); ("L", L)].
Definition cond_of : list (string * Condition) :=
  [("NZ", NZ); ("Z", CZ); ("NC", NC); ("C", CC); ("PO", PO); ("PE", PE); ("P", CP_); ("M", CM)].
Definition stk_of : list (string * StkReg16) := [("BC", SBC); ("DE", SDE); ("HL", SHL)].
Definition ind_of : list (string * Reg16) := [("(BC)", BC); ("(DE)", DE); ("(HL)", HL); ("(SP)", SP)].
Definition signed (e : Z) : Z := if e <? 128 then e else e - 256.
Definition insert {X} (n : nat) (x : X) (l : list X) : list X := firstn n l ++ x :: skipn n l.
(** [parse_arg], mnemonics_test.rs:54-126: an operand, the bytes of the instruction so far and the operand bytes still to be
    drawn. *)
Definition parse_arg (px : option Prefix) (pc : Z) (mn arg : string) (code ops : list Z)
  : option (CpuDebugArg * list Z * list Z) :=
  let is := String.eqb arg in
  let const a := Some (a, code, ops) in
  let branch := existsb (String.eqb mn) ["CALL"; "JP"; "JR"; "RET"] in
  if is "nn" then match ops with n :: ops => Some (DImm8 n, code ++ [n], ops) | _ => None end
  else if is "nnnn" then match ops with l :: h :: ops => Some (DImm16 (256 * h + l), code ++ [l; h], ops) | _ => None end
  else if is "(nnnn)" then match ops with l :: h :: ops => Some (DAddr (ImmAddr (256 * h + l)), code ++ [l; h], ops) | _ => None end
  else if is "(nn)" then match ops with n :: ops => Some (DPort (ImmPort n), code ++ [n], ops) | _ => None end
  else if is "ee" then
    match ops with e :: ops => Some (DImm16 (((pc + 2) mod 65536 + signed e) mod 65536), code ++ [e], ops) | _ => None end
  else if is "(C)" then const (DPort RegPort)
  else match find_key arg cond_of with
  | Some c => if negb (is "C") || branch then const (DCond c) else const (DReg8 None C)
  | None => match find_key arg ind_of with Some g => const (DAddr (RegAddr g)) | None =>
  if is "(I?)" then option_map (fun p => (DAddr (IndexAddr p None), code, ops)) px
  else if is "(I?+dd)" then
    match ops, px with d :: ops, Some p => Some (DAddr (IndexAddr p (Some (signed d))), insert 2 d code, ops) | _, _ => None end
  else if String.eqb mn "RST" then option_map (fun n => (DImm8 n, code, ops)) (num 16 arg)
  else match find_key arg stk_of, existsb (String.eqb mn) ["PUSH"; "POP"] with
  | Some g, true => const (DStk16 g)
  | _, _ =>
  if is "AF" || is "AF'" then const (DStk16 SAF)
  else if is "BC" then const (DReg16 px BC)
  else if is "DE" then const (DReg16 px DE)
  else if is "HL" then const (DReg16 None HL)
  else if is "I?" then const (DReg16 px HL)
  else if is "SP" then const (DReg16 (if String.eqb mn "LD" then None else px) SP)
  else if is "I?H" then const (DReg8 px H)
  else if is "I?L" then const (DReg8 px L)
  else match find_key arg reg8_of with Some r => const (DReg8 None r) | None =>
  if is "I" then const DI
  else if is "R" then const DR
  else if String.eqb mn "IM" then
    match num 10 arg with Some 0 => const (DIntMode Mode0) | Some 1 => const (DIntMode Mode1) | Some 2 => const (DIntMode Mode2)
                        | _ => None end
  else if existsb (String.eqb mn) ["BIT"; "SET"; "RES"] then
    match num 10 arg with Some n => if (String.length arg =? 1)%nat && (n <? 8) then const (DBit n) else None | None => None end
  else None
  end end end end.
Fixpoint parse_args (px : option Prefix) (pc : Z) (mn : string) (args : list string) (code ops : list Z)
  : option (list CpuDebugArg * list Z) :=
  match args with
  | [] => Some ([], code)
  | a :: l => match parse_arg px pc mn a code ops with
              | Some (x, code, ops) => option_map (fun r => (x :: fst r, snd r)) (parse_args px pc mn l code ops)
              | None => None end
  end.
(** [parse_mnemonic], mnemonics_test.rs:128-169. *)
Definition prefix_byte (p : Prefix) : Z := match p with Xdd => 0xDD | Yfd => 0xFD end.
Definition parse_mnemonic (px : option Prefix) (pc : Z) (code : list Z) (text : string) (ops : list Z) : parsed :=
  let go mn args :=
    let code := match px with Some p => prefix_byte p :: code | None => code end in
    match parse_args px pc mn args code ops with
    | Some (l, code) =>
        match l, args with
        | [], [] => Report (mkDebug code mn pc px ANone)
        | [DBit n; a; DReg8 None r], _ => Report (mkDebug code mn pc px (ABitOpExt n a r))
        | [DReg8 p d; DReg8 p' s], _ =>
            Report (mkDebug code mn pc px (if String.eqb mn "LD" then ADouble (DReg8 px d) (DReg8 px s)
                                           else ADouble (DReg8 p d) (DReg8 p' s)))
        | [a; b], _ => Report (mkDebug code mn pc px (ADouble a b))
        | [a], _ => Report (mkDebug code mn pc px (ASingle a))
        | _, _ => Panics
        end
    | None => Panics
    end in
  match words text with
  | ["prefix"; "IX"] => IsPrefix Xdd
  | ["prefix"; "IY"] => IsPrefix Yfd
  | [mn] => go mn []
  | [mn; args] | [mn; args; _] => go mn (split ","%char args)
  | _ => Panics
  end.
(** All op-codes, in the order of mnemonics_test.rs:205-235; the mnemonic of each (:254-263), missing ones after ED being
    NOP*; and what is expected of it after a prefix (:274-296), [pc] being the address of the op-code. *)
Definition bytes_seq : list Z := map Z.of_nat (seq 0 256).
Definition op_codes : list (list Z) :=
  flat_map (fun c => if (c =? 0xCB) || (c =? 0xED) then map (fun d => [c; d]) bytes_seq else [[c]]) bytes_seq.
Fixpoint codes_eqb (a b : list Z) : bool :=
  match a, b with [], [] => true | x :: a, y :: b => (x =? y) && codes_eqb a b | _, _ => false end.
(** The mnemonics of op-codes [cs] in table [t], taken in order; what remains of the table. *)
Fixpoint merge (cs : list (list Z)) (t : list (list Z * string)) : list (list Z * option string) * list (list Z * string) :=
  match cs with
  | [] => ([], t)
  | c :: cs =>
      match t with
      | (c', s) :: t' => if codes_eqb c c' then let r := merge cs t' in ((c, Some s) :: fst r, snd r)
                         else let r := merge cs t in ((c, None) :: fst r, snd r)
      | [] => let r := merge cs [] in ((c, None) :: fst r, snd r)
      end
  end.
Definition or_nop (r : list Z * option string) : option (list Z * string) :=
  match r with
  | (c, Some s) => Some (c, s)
  | (0xED :: l, None) => Some (0xED :: l, "NOP*")
  | _ => None
  end.
Definition is_pfx (c : list Z) : bool := match c with [0xDD] | [0xFD] => true | _ => false end.
(** For every op-code its mnemonic and, if it has one, its mnemonic after a prefix. *)
Definition mnemonic_rows := merge op_codes (entries mnemonics).
Definition prefix_rows := merge (filter (fun c => negb (is_pfx c)) op_codes) (entries mnemonics_prefix).
Definition prefixed (r : list Z * string) : list Z * string * option string :=
  (r, match find (fun q => codes_eqb (fst r) (fst q)) (fst prefix_rows) with Some q => snd q | None => None end).
Definition no_rest {X} (rest rest' : list (list Z * string)) (x : option X) : option X :=
  match rest, rest' with [], [] => x | _, _ => None end.
Definition table : option (list (list Z * string * option string)) :=
  no_rest (snd mnemonic_rows) (snd prefix_rows) (option_map (map prefixed) (all (map or_nop (fst mnemonic_rows)))).
Definition expected (px : option Prefix) (pc : Z) (row : list Z * string * option string) (ops : list Z) : parsed :=
  match row, px with
  | (code, _, Some s), Some _ => parse_mnemonic px ((pc - 1) mod 65536) code s ops
  | (code, s, _), _ => parse_mnemonic None pc code s ops
  end.

(** ** What is read and reported *)
Section Log.
Context {TS WB RB : Type}.
(** Everything read comes from memory contents [m]. *)
Definition read_from (m : Z -> Z) (l : list (ev TS WB RB)) : Prop :=
  Forall (fun e => match e with
    | EOp a _ _ v | ERd a _ v | ERdDebug a v => v = m a
    | ERd16 a _ v => v = m a + 256 * m ((a + 1) mod 65536)
    | _ => True end) l.
(** No interrupt is accepted. *)
Definition undisturbed (l : list (ev TS WB RB)) : Prop :=
  match l with KTs _ :: EIsIrq _ true :: _ => False | _ => True end.
Definition told (l : list (ev TS WB RB)) : list CpuDebug := flat_map (fun e => match e with EDebug d => [d] | _ => [] end) l.
End Log.
(** [code] is in memory [m] at address [p]. *)
Fixpoint stored (m : Z -> Z) (p : Z) (code : list Z) : Prop :=
  match code with [] => True | x :: l => m p = x /\ stored m ((p + 1) mod 65536) l end.
(** The bytes of an instruction from its op-code on. *)
Definition from_opcode (d : CpuDebug) : list Z := match dprefix d with Some _ => tl (dcode d) | None => dcode d end.

(** ** Cycles (cycles_test.rs:207-471) *)
Inductive busval :=
| BPc (o : Z) | BIr (o : Z) | BBc (o : Z) | BDe (o : Z) | BHl (o : Z) | BSp (o : Z) | BNn (o : Z) | BAn (o : Z) | BIndex.
Inductive cycle :=
| CM1 (n : Z) | CX (n : Z) (b : busval) | CMq (b : busval) | CQr (b : busval) | CMr (b : busval) | CMw (b : busval)
| CPr (b : busval) | CPw (b : busval) | CSplit.
Inductive prereq := PFlags | PB1 | PBC1 | PBC1OrAHl.
Record icycles := mkIC { ic_cycles : list cycle; ic_imm : nat; ic_off : bool; ic_cond : option Condition; ic_pre : option prereq }.

(* cycles_test.rs:249-280 *)
Definition busval_of (s : string) : option busval :=
  if String.eqb s "ii+d" then Some BIndex
  else
    let make (f : Z -> busval) r :=
      match r with
      | "" => Some (f 0)
      | String "+" n => option_map f (num 10 n)
      | String "-" n => option_map (fun n => f (- n)) (num 10 n)
      | _ => None
      end in
    let try p f (k : option busval) := match after p s with Some r => make f r | None => k end in
    try "pc" BPc (try "ir" BIr (try "bc" BBc (try "de" BDe (try "hl" BHl (try "sp" BSp (try "nn" BNn (try "an" BAn None))))))).
(* cycles_test.rs:296-324 *)
Definition cycle_of (s : string) : option cycle :=
  if String.eqb s "|" then Some CSplit
  else match split ":"%char s with
  | [k; b] =>
      let bus f := option_map f (busval_of b) in
      if String.eqb k "m1" then option_map CM1 (num 10 b)
      else if String.eqb k "mq" then bus CMq else if String.eqb k "qr" then bus CQr
      else if String.eqb k "mr" then bus CMr else if String.eqb k "mw" then bus CMw
      else if String.eqb k "pr" then bus CPr else if String.eqb k "pw" then bus CPw
      else match k with
      | String "x" n => match num 10 n with
                        | Some n => if existsb (Z.eqb n) [1; 2; 4; 5; 7] then bus (CX n) else None | None => None end
      | _ => None
      end
  | _ => None
  end.
(* cycles_test.rs:282-294 *)
Definition prereq_of : list (string * prereq) :=
  [("<F!~cc>", PFlags); ("<B=1>", PB1); ("<BC=1>", PBC1); ("<BC=1||A=(HL)>", PBC1OrAHl)].
(* cycles_test.rs:326-340 *)
Definition header_of (s : string) : option (option prereq * list cycle) :=
  let l := split ","%char s in
  if starts "<" s then
    match l with
    | p :: l => match find_key p prereq_of, all (map cycle_of l) with Some p, Some l => Some (Some p, l) | _, _ => None end
    | [] => None
    end
  else option_map (fun l => (None, l)) (all (map cycle_of l)).
(* cycles_test.rs:342-357 *)
Definition placeholders : list (string * list string) :=
  [("b", ["0"; "1"; "2"; "3"; "4"; "5"; "6"; "7"]); ("r", ["B"; "C"; "D"; "E"; "H"; "L"; "A"]);
   ("q", ["B"; "C"; "D"; "E"; "I?H"; "I?L"; "A"]); ("q!", ["B"; "C"; "D"; "E"; "A"]); ("m", ["0"; "1"; "2"]);
   ("rr", ["BC"; "DE"; "HL"; "SP"]); ("qq", ["BC"; "DE"; "I?"; "SP"]); ("ss", ["BC"; "DE"; "HL"; "AF"]);
   ("cc", ["NZ"; "Z"; "NC"; "C"; "PO"; "PE"; "P"; "M"]); ("cc!", ["NZ"; "Z"; "NC"; "C"]);
   ("pp", ["00"; "08"; "10"; "18"; "20"; "28"; "30"; "38"])].
(* cycles_test.rs:359-380: the argument lists *)
Fixpoint expand (args : list string) : list (list string) :=
  match args with
  | [] => [[]]
  | a :: l => let ls := expand l in
              flat_map (fun x => map (cons x) ls) (match find_key a placeholders with Some xs => xs | None => [a] end)
  end.
(* cycles_test.rs:382-404, 427-435 *)
Definition instruction_of (h : option prereq * list cycle) (line : string) : option (list (string * icycles)) :=
  let make mn args star := map (fun l =>
      ((match l with [] => mn | _ => mn ++ " " ++ String.concat "," l end ++ star)%string,
       mkIC (snd h) (count_nn line) (contains "(I?+dd)" line)
         (if contains "cc" line then match l with c :: _ => find_key c cond_of | [] => None end else None) (fst h)))
    (expand args) in
  match words line with
  | [mn] => Some (make mn [] "")
  | [mn; args] => Some (make mn (split ","%char args) "")
  | [mn; args; "*"] => Some (make mn (split ","%char args) " *")
  | _ => None
  end.
(** [build_cycle_hash], cycles_test.rs:412-444; [h]: the header of the group read last. *)
Fixpoint cycle_lines (h : option (option prereq * list cycle)) (ls : list string) : option (list (string * icycles)) :=
  match ls with
  | [] => Some []
  | s :: ls =>
      match h with
      | None => if starts "#" s then cycle_lines None ls
                else match header_of s with Some h => cycle_lines (Some h) ls | None => None end
      | Some hd =>
          if nonempty s then
            match instruction_of hd s, cycle_lines h ls with Some x, Some l => Some (x ++ l) | _, _ => None end
          else cycle_lines None ls
      end
  end.
Definition cycle_table : list (string * icycles) := match cycle_lines None (lines mnemonics_cycles) with Some l => l | None => [] end.

(** ** The expected cycles (cycles_test.rs:471-558) in state [a], with memory [m], of an instruction of [n] bytes *)
Section Expected.
Context {T : Type}.
Variables (px : option Prefix) (a : arch T) (m : Z -> Z) (n : Z).
Definition w (x : Z) : Z := x mod 65536.
(** The [i]th byte of the instruction. *)
Definition code_at (i : Z) : Z := m (w (aPC a + i)).
Definition index_reg : Z := match px with Some Xdd => aIX a | Some Yfd => aIY a | None => 0 end.
(* cycles_test.rs:474-502 *)
Definition bus_value (b : busval) : Z :=
  match b with
  | BPc o => w (aPC a + o)
  | BIr o => let ir := 256 * aI a + aR a in ir - ir mod 128 + (ir + o) mod 128
  | BBc o => w (aBC a + o) | BDe o => w (aDE a + o) | BHl o => w (aHL a + o) | BSp o => w (aSP a + o)
  | BNn o => w (code_at (n - 2) + 256 * code_at (n - 1) + o)
  | BAn o => w (code_at (n - 1) + 256 * aA a + o)
  | BIndex => w (index_reg + signed (code_at 2))
  end.
(* cycles_test.rs:506-557 *)
Definition tick_of (c : cycle) : list tev :=
  match c with
  | CM1 k => [TM1 (w (aPC a + k))]
  | CX k b => [TX (bus_value b) k]
  | CMq b | CMr b | CMw b => [TMreq (bus_value b)]
  | CPr b | CPw b => [TIo (bus_value b)]
  | CQr _ | CSplit => []
  end.
Inductive access := FetchAt (p : Z) | ReadAt (p : Z) | WriteAt (p : Z) | InAt (p : Z) | OutAt (p : Z).
Definition access_of (c : cycle) : list access :=
  match c with
  | CM1 k => [FetchAt (w (aPC a + k))]
  | CQr b | CMr b => [ReadAt (bus_value b)]
  | CMw b => [WriteAt (bus_value b)]
  | CPr b => [InAt (bus_value b)]
  | CPw b => [OutAt (bus_value b)]
  | CX _ _ | CMq _ | CSplit => []
  end.
(** A condition in flags [f] (S 7, Z 6, P/V 2, C 0). *)
Definition satisfied (c : Condition) (f : Z) : bool :=
  let flag k := Z.testbit f k in
  match c with
  | NZ => negb (flag 6) | CZ => flag 6 | NC => negb (flag 0) | CC => flag 0
  | PO => negb (flag 2) | PE => flag 2 | CP_ => negb (flag 7) | CM => flag 7
  end.
(** When the cycles after the split point are missing (cycles_test.rs:577-625). *)
Definition short (i : icycles) : bool :=
  match ic_pre i with
  | None => false
  | Some PFlags => match ic_cond i with Some c => negb (satisfied c (aF a)) | None => false end
  | Some PB1 => aBC a / 256 =? 1
  | Some PBC1 => aBC a =? 1
  | Some PBC1OrAHl => (aBC a =? 1) || (aA a =? m (aHL a))
  end.
Fixpoint head (cs : list cycle) : list cycle :=
  match cs with [] | CSplit :: _ => [] | c :: cs => c :: head cs end.
Definition performed (i : icycles) : list cycle := if short i then head (ic_cycles i) else ic_cycles i.
End Expected.
(** The memory and port accesses of a log. *)
Definition accesses {WB RB} (bl : list (bev WB RB)) : list access :=
  flat_map (fun e => match e with
    | VOp a _ _ => [FetchAt a] | VRd a _ => [ReadAt a] | VWr a _ => [WriteAt a]
    | VIn p _ _ => [InAt p] | VOut p _ _ _ => [OutAt p] | _ => [] end) bl.
(** Clock calls other than for wait states a device asked for. *)
Definition ticks (cl : list tev) : list tev := filter (fun e => match e with TWait _ _ => false | _ => true end) cl.
Definition supplied {WB RB} (m : Z -> Z) (bl : list (bev WB RB)) : Prop :=
  Forall (fun e => match e with VOp a _ v | VRd a v => v = m a | _ => True end) bl.
Definition not_taken {WB RB} (bl : list (bev WB RB)) : Prop := match bl with VIrq true :: _ => False | _ => True end.
(** The bytes of an instruction but its immediate operands; its length. *)
Definition opcode_bytes (px : option Prefix) (code : list Z) (i : icycles) (d : Z) : list Z :=
  let code := match px with Some p => prefix_byte p :: code | None => code end in
  if ic_off i then insert 2 d code else code.
Definition size (px : option Prefix) (code : list Z) (i : icycles) : Z :=
  Z.of_nat (List.length (opcode_bytes px code i 0) + ic_imm i).
(** The lines tested without and with a prefix (cycles_test.rs:691-708). *)
Definition tested (px : option Prefix) : list (list Z * string) :=
  match px with None => filter (fun e => negb (is_pfx (fst e))) (entries mnemonics) | Some _ => entries mnemonics_prefix end.
(** A prefix is a step of its own (cycles_test.rs:658-672). *)
Definition instruction {Q TS WB RB} (FL : Flavour Q) (dbg : bool) (px : option Prefix) (c : cpu Q) : prog TS WB RB (cpu Q * result WB RB) :=
  match px with
  | None => execute_next FL dbg c
  | Some _ => pbind (execute_next FL dbg c) (fun x => execute_next FL dbg (fst x))
  end.
