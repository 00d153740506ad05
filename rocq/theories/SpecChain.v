(** How devices in a daisy chain have to share the interrupt line: the CTC goes before the PIO (examples/ral1243/README.md:38, Zilog's Z80 family
    manual on the interrupt priority daisy chain). *)
From Coq Require Import ZArith Bool List.
From Verif Require Import Base RalBus RalPio SpecPio RalCtc SpecCtc.
Import ListNotations.
Open Scope Z_scope.

(** Each acknowledge comes directly after the line was seen active. *)
Fixpoint granted (seen : bool) (l : list (bop * ans)) : Prop :=
  match l with
  | [] => True
  | (o, x) :: l => match o with BAck _ _ => seen = true | _ => True end /\ granted (match o, x with BIrq _, ALine true => true | _, _ => false end) l
  end.

(** Who is served, the last one first: an acknowledge begins to serve the CTC unless it is served already, or the PIO if nothing is;
    a RETI ends what began last.  The line is not active while the CTC is served. *)
Inductive level := Timers | Port.
Inductive nested : list level -> list (bop * ans) -> list level -> Prop :=
| n_nil st : nested st [] st
| n_quiet st t l st' : nested st l st' -> nested st ((BIrq t, ALine false) :: l) st'
| n_line st t l st' : ~ In Timers st -> nested st l st' -> nested st ((BIrq t, ALine true) :: l) st'
| n_timers st pc t v l st' : ~ In Timers st -> nested (Timers :: st) l st' -> nested st ((BAck pc t, AByte v) :: l) st'
| n_port pc t v l st' : nested [Port] l st' -> nested [] ((BAck pc t, AByte v) :: l) st'
| n_reti st pc t x l st' : nested (tl st) l st' -> nested st ((BReti pc t, x) :: l) st'
| n_reset st t x l st' : nested [] l st' -> nested st ((BReset t, x) :: l) st'
| n_other st o x l st' : (forall t, o <> BIrq t) -> (forall pc t, o <> BAck pc t) -> (forall pc t, o <> BReti pc t) -> is_reset o = false ->
    nested st l st' -> nested st ((o, x) :: l) st'.
(** Acknowledges that have not been answered by a RETI yet. *)
Fixpoint open (n : nat) (l : list (bop * ans)) : nat :=
  match l with
  | [] => n
  | (BAck _ _, _) :: l => open (S n) l
  | (BReti _ _, _) :: l => open (pred n) l
  | (BReset _, _) :: l => open 0 l
  | _ :: l => open n l
  end.

(** What goes through the CTC to the devices behind it: everything but its own ports and some of the interrupt business, with the answers. *)
Definition may_stop (o : bop) : Prop :=
  match o with BIrq _ | BAck _ _ | BReti _ _ => True | BIn p _ | BOut p _ _ => p mod 256 / 4 = 1 | _ => False end.
Inductive passes : list (bop * ans) -> list (bop * ans) -> Prop :=
| ps_nil : passes [] []
| ps_through e l l' : passes l l' -> passes (e :: l) (e :: l')
| ps_stop o x l l' : may_stop o -> passes l l' -> passes ((o, x) :: l) l'.
(** Requests, in the order of their priority, each with what is to be sent to the CPU. *)
Definition asks {W A B D} (p : ctc W (pio A B D)) : list (level * bool * Z) :=
  [(Timers, cc_int (ct_0 p), Z.lor (ct_vec p) 0); (Timers, cc_int (ct_1 p), Z.lor (ct_vec p) 2); (Timers, cc_int (ct_2 p), Z.lor (ct_vec p) 4); (Timers, cc_int (ct_3 p), Z.lor (ct_vec p) 6);
   (Port, ch_int (pio_a (ct_next p)), ch_vec (pio_a (ct_next p))); (Port, ch_int (pio_b (ct_next p)), ch_vec (pio_b (ct_next p)))].
Definition served {W A B D} (p : ctc W (pio A B D)) : list level := (if ct_ieo p then [Timers] else []) ++ (if pio_ieo (ct_next p) then [Port] else []).
(** Words written to the CTC do not set its vector to one of the eight around [vb]. *)
Definition away_from (vb : Z) (o : bop) : Prop := match o with BOut p v _ => p mod 256 / 4 = 1 -> Z.testbit v 0 = false -> Z.land v 0xF8 <> Z.land vb 0xF8 | _ => True end.
