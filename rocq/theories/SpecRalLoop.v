(** What is expected of the example computer's thread, said of the list of what happened. *)
From Coq Require Import ZArith Bool List.
From Verif Require Import Base Parse Cpu Prog RalMemory RalBus RalRunner RalDebug RalThread RalLoop.
Import ListNotations.

(** A request for an NMI is settled by an accepted NMI or by a reset. *)
Definition settles (e : event) : Prop := e = ETry true \/ e = EReset.
Definition unsettled (l : list event) : Prop := Forall (fun e => ~ settles e) l.
(** As long as it is not settled, each turn begins with another try. *)
Definition kept (l : list event) : Prop :=
  forall a b c, l = a ++ EAsk :: b ++ ETurn :: c -> unsettled b -> exists ok d, c = ETry ok :: d.
(** Each try is made for a request that is not settled. *)
Definition asked (l : list event) : Prop :=
  forall a ok b, l = a ++ ETry ok :: b -> exists c d, a = c ++ EAsk :: d /\ unsettled d.
(** How often something is in the list. *)
Definition count (f : event -> bool) (l : list event) : nat := List.length (filter f l).
Definition is_ask e := match e with EAsk => true | _ => false end.
Definition is_accept e := match e with ETry true => true | _ => false end.
Definition frames_of (l : list event) : list Z := flat_map (fun e => match e with EFrame t => [t] | _ => [] end) l.
(** Messages that leave a running computer alone. *)
Definition idle (p : poll) : Prop := p = PEmpty \/ p = PMsg MContinue.
(** Messages that tell a stopped computer nothing to do. *)
Definition quiet (p : poll) : Prop := p = PEmpty.
(** What ends the thread. *)
Definition stops (p : poll) : Prop := p = PMsg MTerminate \/ p = PClosed.
(** Messages that stop a running computer for the debugger. *)
Definition enters (m : msg) : Prop := m = MDebugNext \/ m = MDebugCompletion \/ m = MDebugRunIrq.
(** What each message comes to, but for the tries: while the computer runs, a frame and then the message; in debug mode the message alone. *)
Inductive kind := KTurn | KFrame | KAsk | KReset | KOrder (m : msg) | KDebug | KLeave | KEnd.
Definition kinds (l : list event) : list kind :=
  flat_map (fun e => match e with ETurn => [KTurn] | ETry _ => [] | EFrame _ => [KFrame] | EAsk => [KAsk] | EReset => [KReset] | EOrder m _ _ => [KOrder m]
    | EDebug => [KDebug] | ELeave => [KLeave] | EEnd => [KEnd] end) l.
Fixpoint running (ps : list poll) : list kind :=
  match ps with
  | [] => []
  | p :: ps => KTurn :: KFrame ::
      match p with
      | PMsg MTerminate | PClosed => [KEnd]
      | PMsg MReset => KReset :: running ps
      | PMsg MNmi => KAsk :: running ps
      | PMsg MContinue | PEmpty => running ps
      | PMsg _ => KDebug :: debugging ps
      end
  end
with debugging (ps : list poll) : list kind :=
  match ps with
  | [] => []
  | PEmpty :: ps => debugging ps
  | p :: ps => KTurn ::
      match p with
      | PMsg MTerminate | PClosed => [KEnd]
      | PMsg MReset => KReset :: debugging ps
      | PMsg MNmi => KAsk :: debugging ps
      | PMsg MContinue => KLeave :: running ps
      | PMsg m => KOrder m :: debugging ps
      | PEmpty => []
      end
  end.

(** What each event does to the computer, by the parts C53, C63 and C65 are about. *)
Section Does.
Context {Q D : Type}.
Variables (FL : Flavour Q) (da : bool) (mask bits : Z) (dv : dev D) (search : list Z -> Z -> nat + nat) (n hz : nat).
Notation world := (world Q D).
Definition does (e : event) (w w' : world) : Prop :=
  match e with
  | ETry ok => exists r, runner_nmi FL mask bits dv w = Done (w', r) /\ (ok = true <-> r <> None)
  | EFrame ts => runner_step FL da mask bits dv n w = Done (w', ts)
  | EReset => runner_reset FL dv w = Done w'
  | EOrder MDebugNext d ts => debug_step FL mask bits dv n w = Done (w', (d, ts))
  | EOrder MDebugCompletion d ts => run_to_completion FL mask bits dv search n hz w = Done (w', (d, ts))
  | EOrder MDebugRunIrq d ts => run_for (debug_runto_int FL mask bits dv n) 0 hz w = Done (w', (d, ts))
  | EOrder _ _ _ => False
  | ETurn | EAsk | EDebug | ELeave | EEnd => w' = w
  end.
Inductive history : list event -> world -> world -> Prop :=
| H_nil w : history [] w w
| H_cons e l w w1 w' : does e w w1 -> history l w1 w' -> history (e :: l) w w'.
End Does.

(** Devices that can also be left alone for a while. *)
Definition patient {D : Type} (ok : Z -> D -> Prop) (top : Z) : Prop := forall t t' d, ok t d -> (0 <= t <= t')%Z -> (t' < top)%Z -> ok t' d.
(** Messages that are not for the debugger. *)
Definition plain (p : poll) : Prop := match p with PMsg m => ~ enters m | _ => True end.
