(** What a disassembler should list (C36). *)
From Coq Require Import ZArith Bool String List.
From Verif Require Import Base Parse SpecIsa SpecInt SpecDebug.
Import ListNotations.
Open Scope list_scope.
Open Scope Z_scope.

(** [bs] are the first bytes of an instruction that is longer; [px]: preceded by a prefix. *)
Definition truncated (px : bool) (bs : list Z) : Prop :=
  match bs with
  | [] => True
  | c :: _ => is_prefix c = false /\ Z.of_nat (List.length bs) < oplen (px && indexable c) c (nth 1 bs 0xFF)
  end.
Definition nonempty {X} (l : list X) : bool := match l with [] => false | _ => true end.
(** The reports [rs] list the memory [m] at address [p]: between the reported instructions there are only prefixes (DD, FD)
    which do not belong to the instruction that follows; at the end prefixes and at most one incomplete instruction.  *)
Inductive listing (p : Z) (m : list Z) : list CpuDebug -> Prop :=
| L_end g t : m = g ++ t -> Forall (fun b => is_prefix b = true) g -> truncated (nonempty g) t -> listing p m []
| L_instr g d m' rs : m = g ++ dcode d ++ m' -> Forall (fun b => is_prefix b = true) g ->
    (g <> [] -> dprefix d = None -> indexable (hd 0 (dcode d)) = false) ->
    dpc d = (p + Z.of_nat (List.length g)) mod 65536 -> well_described d ->
    listing ((p + Z.of_nat (List.length g) + Z.of_nat (List.length (dcode d))) mod 65536) m' rs ->
    listing p m (d :: rs).
(** Handing reports over to a closure until it fails. *)
Fixpoint feed {S E} (debug : S -> CpuDebug -> S * option E) (rs : list CpuDebug) (s : S) : S * option E :=
  match rs with
  | [] => (s, None)
  | d :: rs => match debug s d with (s, Some e) => (s, Some e) | (s, None) => feed debug rs s end
  end.
(** What a report says. *)
Definition summary (d : CpuDebug) := (dpc d, dcode d, dprefix d, dmnemonic d, operands (dargs d)).
