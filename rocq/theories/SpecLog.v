(** Properties of the sequence of host calls, stated on the log of an execution ([Trace.ev]). *)
From Coq Require Import ZArith List.
From Verif Require Import Base Parse Prog Trace.
Import ListNotations.
Open Scope Z_scope.

Section Log.
Context {TS WB RB : Type}.
Notation ev := (ev TS WB RB).

(** [p] runs to completion on every host, with a result and a log satisfying [P]. *)
Definition logs {A} (p : prog TS WB RB A) (P : A -> list ev -> Prop) : Prop :=
  forall BS CK (Hs : host TS WB RB BS CK) (b : BS) (k : CK),
  exists x b' k' l, runl Hs p b k = Some (x, b', k', l) /\ P x l.

(** A host access [e] is covered by the clock call made immediately before it: same address, and the
    time stamp it carries is the one that call returned.  Wait states are added exactly as the device just asked,
    and idle T-states come in positive numbers. *)
Definition covered (before : option ev) (e : ev) : Prop :=
  match e with
  | EOp a _ t _ => before = Some (KM1 a t)
  | ERd a t _ | ERd16 a t _ | EWr a _ t => before = Some (KMreq a t)
  | EIn p t _ _ | EOut p _ t _ _ => before = Some (KIo p t)
  | EIrqData a t _ _ => before = Some (KIrq a t)
  | EIsIrq t _ | EReti _ t _ => before = Some (KTs t)
  | KWait a n => match before with
      | Some (EIn p _ _ (Some w)) | Some (EOut p _ _ _ (Some w)) | Some (EIrqData p _ _ (Some w)) => a = p /\ n = w
      | _ => False end
  | KNoMreq _ n => (0 <? n) = true
  | _ => True
  end.
(** Every access of the log is covered. *)
Fixpoint stamped (before : option ev) (l : list ev) : Prop :=
  match l with
  | [] => True
  | e :: l => covered before e /\ stamped (Some e) l
  end.
End Log.
