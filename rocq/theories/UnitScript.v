(** The unit tests of the crate as scripts.  A test of src/z80/ops.rs:438-1275 or src/cpu/flags.rs:309-442 is a list of
    statements working on one variable, [flags].  Nothing here depends on what the operations do: they are arguments. *)
From Coq Require Import ZArith Bool List.
Import ListNotations.
Open Scope Z_scope.

Inductive stmt : Type :=
| Set_ (fl : Z)                                            (* [flags = fl;] *)
| Change (g : Z -> Z)                                      (* [flags.insert(..);] and the like *)
| Check (p : Z -> bool)                                    (* [assert_eq!(.., flags);] *)
| Call (op : Z -> option (list Z * Z)) (want : list Z)     (* [assert_eq!(want, op(.., &mut flags));]; [None] is a panic *)
| Each (l : list Z) (body : Z -> list stmt).               (* [for i in l { .. }] *)

Fixpoint same (l k : list Z) : bool :=
  match l, k with
  | [], [] => true
  | x :: l, y :: k => (x =? y) && same l k
  | _, _ => false
  end.

(** The flags after a statement, or [None] if an assertion fails or an operation panics. *)
Fixpoint perform (s : stmt) (fl : Z) {struct s} : option Z :=
  match s with
  | Set_ fl' => Some fl'
  | Change g => Some (g fl)
  | Check p => if p fl then Some fl else None
  | Call op want =>
      match op fl with
      | Some (got, fl') => if same want got then Some fl' else None
      | None => None
      end
  | Each l body =>
      (fix each (l : list Z) (fl : Z) : option Z :=
         match l with
         | [] => Some fl
         | i :: l =>
             match (fix go (b : list stmt) (fl : Z) : option Z :=
                      match b with
                      | [] => Some fl
                      | s :: b => match perform s fl with Some fl' => go b fl' | None => None end
                      end) (body i) fl with
             | Some fl' => each l fl'
             | None => None
             end
         end) l fl
  end.

Fixpoint script (b : list stmt) (fl : Z) : option Z :=
  match b with
  | [] => Some fl
  | s :: b => match perform s fl with Some fl' => script b fl' | None => None end
  end.
Definition passes (b : list stmt) : bool := match script b 0 with Some _ => true | None => false end.

(** How the results of the model's operations are shown to a script. *)
Definition bytes_of (f : Z -> Z * Z) (fl : Z) : option (list Z * Z) :=
  let (v, fl') := f fl in Some ([v / 256; v mod 256], fl').
Definition byte_of (f : Z -> Z * Z) (fl : Z) : option (list Z * Z) := let (v, fl') := f fl in Some ([v], fl').
Definition pair_of (f : Z -> (Z * Z) * Z) (fl : Z) : option (list Z * Z) :=
  let '((v, w), fl') := f fl in Some ([v; w], fl').
Definition none_of (f : Z -> Z) (fl : Z) : option (list Z * Z) := Some ([], f fl).
Definition opt_of (f : Z -> option (Z * Z)) (fl : Z) : option (list Z * Z) :=
  match f fl with Some (v, fl') => Some ([v], fl') | None => None end.
(* [g(f(.., &mut flags), &mut flags)] *)
Definition after (f : Z -> Z * Z) (g : Z -> Z -> option (Z * Z)) (fl : Z) : option (list Z * Z) :=
  let (v, fl') := f fl in opt_of (g v) fl'.

(** [lo..=hi], and [1 << b] in a [u8]. *)
Definition upto (lo hi : Z) : list Z := map (fun n => lo + Z.of_nat n) (seq 0 (Z.to_nat (hi - lo + 1))).
Definition shl8 (a b : Z) : Z := Z.shiftl a b mod 256.
