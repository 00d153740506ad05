(** Property C41 for [execute_with_limit]. *)
From Coq Require Import ZArith Bool List.
From Verif Require Import Base Parse Cpu Flavours Prog Trace Exec Range Demo SpecState SpecIsa SpecEffects IsaLink IsaRun Asks.
Import ListNotations.
Open Scope Z_scope.

(** Of all that devices may ask for during a run, at most one request is made, and that one is returned: no break is lost, none is made up,
    and nothing is asked for after it. *)
Theorem C41_limit : forall Q T TS WB RB (FL : Flavour Q) (ch : chip T) absq, models FL ch absq ->
  forall BS CK (Hs : host TS WB RB BS CK) da fuel (c : cpu Q) b k c' r b' k' l, wf c ->
  runl Hs (execute_with_limit FL da fuel c) b k = Some (Some (c', r), b', k', l) ->
  requests (buses l) = match r with None | Some BHalt => [] | Some x => [x] end.
Proof.
  intros Q T TS WB RB FL ch absq M BS CK Hs da fuel c b k c' r b' k' l W E.
  rewrite (ewl_asks FL ch absq (models_ok _ _ _ M) Hs da fuel c b k _ b' k' l W E). destruct r as [[| |]|]; reflexivity.
Qed.
Print Assumptions C41_limit.
(** NOP; OUT (12h),A; NOP: stopped by the OUT, with three more T-states to go. *)
Example C41_ex_limit :
  match runl (rig 18 0) (execute_with_limit NMOS true 9 (set_af 0x5A00 (nm 0x100))) (poke 0x101 [0xD3; 0x12] m0) 0 with
  | Some (Some (c, r), _, k, l) => (r, pc c, k, requests (buses l)) = (Some (BWriteIo 0x5A), 0x103, 15, [BWriteIo 0x5A])
  | _ => False
  end.
Proof. vm_compute. reflexivity. Qed.
