(** The test of the methods of a CPU (src/z80/tests.rs:10-229) as a script, and the machine it is run on. *)
From Coq Require Import ZArith Bool String List.
From Verif Require Import Base Parse Cpu Flavours Prog Exec Any Clock Format DebugText.
Import ListNotations.
Open Scope string_scope.
Open Scope list_scope.
Open Scope Z_scope.

(** [i32] clock, nothing but the default methods of [Io] and [Memory] (tests.rs:15-25). *)
Definition I32 : itype := mkIty true 32.
Definition dummy : host Z unit unit unit Z :=
  ts_host I32 0 (fun _ _ => 255) (fun b _ _ _ => b)
    dflt_read_io dflt_write_io dflt_is_irq dflt_irq_data dflt_reti.

Inductive tstep : Type :=
| Want (m : call) (v : answer unit unit)     (* call a method, compare what it returns *)
| Text (x : radix) (s : string)              (* the [Debug] text, without the wrapper of [Z80Any] *)
| Kind                                       (* the [Debug] text of the flavour *)
| Field (f : forall Q, cpu Q -> Z) (v : Z).  (* a private field *)

(* flavours.rs:54-84, derived: [{:x?}] of a structure with two fields of type [bool] and of one without fields *)
Definition q_text (name : string) (q : qstate) : string :=
  debug_struct false name [("flags_modified", dbg_bool (q_modified q)); ("last_flags_modified", dbg_bool (q_last q))].

(** What the macro is given besides the script: how methods are called, how the CPU is written (around the text of the
    [Z80] there are [$wrap] and [$wrap_end]), how its flavour is, and how a field is reached. *)
Record subject (X : Type) := mkSubject {
  s_call : call -> X -> prog Z unit unit (option (X * answer unit unit));
  s_text : radix -> X -> string;
  s_kind : X -> string;
  s_field : (forall Q, cpu Q -> Z) -> X -> Z }.
Arguments mkSubject {X}. Arguments s_call {X}. Arguments s_text {X}. Arguments s_kind {X}. Arguments s_field {X}.

Inductive item : Type := IAns (v : answer unit unit) | IText (s : string) | IVal (v : Z).
Section Run.
Context {X : Type} (S : subject X) (wrap wrap_end kind : string).
(** What the script compares with: one item for each assertion... *)
Definition wanted (t : tstep) : item :=
  match t with
  | Want _ v => IAns v
  | Text _ s => IText (wrap ++ s ++ wrap_end)
  | Kind => IText kind
  | Field _ v => IVal v
  end.
(** ... and what it gets, starting with the CPU [x]. *)
Fixpoint got (l : list tstep) (x : X) (clock : Z) : option (list item) :=
  match l with
  | [] => Some []
  | Want m _ :: l =>
      match run dummy (s_call S m x) tt clock with
      | Some (Some (x', v), _, clock', _) => option_map (cons (IAns v)) (got l x' clock')
      | _ => None
      end
  | Text r _ :: l => option_map (cons (IText (s_text S r x))) (got l x clock)
  | Kind :: l => option_map (cons (IText (s_kind S x))) (got l x clock)
  | Field f _ :: l => option_map (cons (IVal (s_field S f x))) (got l x clock)
  end.
Definition holds (l : list tstep) (x : X) : Prop := got l x 0 = Some (map wanted l).
End Run.

Definition z80_subject {Q} (FL : Flavour Q) (k : Q -> string) : subject (cpu Q) :=
  mkSubject (z80_call FL) (fun r c => debug_text r false c) (fun c => k (flavour c)) (fun f c => f Q c).
Definition any_subject : subject z80any :=
  mkSubject any_call (fun r a => any_debug_text r false a)
    (fun a => match a with AnyNMOS c => q_text "NMOS" (flavour c) | AnyCMOS _ => "CMOS" | AnyBM1 c => q_text "BM1" (flavour c) end)
    (fun f a => any_get a (fun Q _ c => f Q c)).

(** ** tests/flav_test.rs *)
(* flav_test.rs:55-94 *)
Definition test_code : list Z :=
  [0x01; 0x34; 0x12; 0xED; 0x71; 0x76; 0x3E; 0xFF; 0x32; 0xFF; 0x55; 0xCB; 0x6E; 0x76; 0x3A; 0x00; 0xFF; 0xCB; 0x5E; 0x3E; 0x00;
   0x37; 0x76; 0x3A; 0x00; 0xFF; 0xCB; 0x6E; 0xAF; 0x3F; 0x76; 0xFB; 0xAF; 0xED; 0x57; 0x76].
(* flav_test.rs:103-110: 39h bytes, HALT in the last *)
Definition test_mem : list Z := test_code ++ repeat 0 (0x38 - List.length test_code) ++ [0x76].
(* flav_test.rs:26-53: the bus state is (out_port, out_data); [is_irq]: ts > 8; memory outside reads FFh, writes are lost *)
Definition ctrl : host Z unit unit (Z * Z) Z :=
  ts_host I32 100 (fun _ a => nth (Z.to_nat a) test_mem 255) (fun b _ _ _ => b)
    dflt_read_io (fun _ port data _ => ((port, data), (None, None))) (fun b ts => (b, 8 <? ts)) dflt_irq_data dflt_reti.

(** The loop of [execute_test] (flav_test.rs:173-182): until HALT; [None]: a panic.  The test gives up after 100 T-states, and an
    instruction takes at least 4, so that 26 rounds are enough. *)
Fixpoint until_halt {Q} (FL : Flavour Q) (fuel : nat) (c : cpu Q) (b : Z * Z) (clock : Z) : option (cpu Q * (Z * Z)) :=
  if halt c then Some (c, b)
  else match fuel with
       | O => None
       | S fuel =>
           match run ctrl (execute_next FL true c) b clock with
           | Some (c', None, b', clock', _) => if ts_is_past_limit 100 clock' then None else until_halt FL fuel c' b' clock'
           | Some (c', Some BHalt, b', clock', _) => Some (c', b')
           | _ => None
           end
       end.
(* flav_test.rs:164-172 *)
Definition execute_test {Q} (FL : Flavour Q) (d : Q) (addr : Z) : option (cpu Q * (Z * Z)) :=
  let c := reset FL (cpu_default d) in
  if (get_acc c =? 255) && (get_flags c =? 255)
  then until_halt FL 26 (set_pc addr (set_flags 0 (set_acc 0 c))) (0, 0xAA) 0
  else None.
(* flav_test.rs:120-124 *)
Definition test1 {Q} (FL : Flavour Q) (d : Q) : option (Z * Z) := option_map snd (execute_test FL d 0).
(* flav_test.rs:154-158 *)
Definition test2345 {Q} (FL : Flavour Q) (d : Q) (addr : Z) : option (Z * Z) :=
  option_map (fun x => (memptr (fst x), get_flags (fst x))) (execute_test FL d addr).
