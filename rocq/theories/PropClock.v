(** Property C34: the clock [TsCounter]. *)
From Coq Require Import ZArith Bool List Lia.
From Verif Require Import Base Flags Parse Prog Trace Clock ClockProofs.
Import ListNotations.
Open Scope Z_scope.

(** Any sequence of clock calls, for a counter of any width, signed or not. *)
Theorem C34_calls : forall T, 0 < bits T -> forall l now,
  ts_calls T (wrap T now) l = (wrap T (now + total l), map (option_map (wrap T)) (stamps now l)).
Proof. exact ts_calls_ok. Qed.
(** [wrap] is reduction modulo 2^bits into the range of the type. *)
Theorem C34_wrap : forall T, 0 < bits T -> forall x y,
  in_type T (wrap T x) /\ wrap T x mod 2 ^ bits T = x mod 2 ^ bits T /\
  (in_type T y -> y mod 2 ^ bits T = x mod 2 ^ bits T -> y = wrap T x).
Proof.
  exact (fun T H x y => conj (wrap_range T H x) (conj (wrap_mod T H x) (wrap_unique T H y x))).
Qed.
(** The clock after any complete run of CPU code is its start value plus the T-states of all calls made. *)
Theorem C34_run : forall T, 0 < bits T ->
  forall WB RB BS A (Hs : host Z WB RB BS Z) (p : prog Z WB RB A), is_ts T Hs ->
  forall b k a b' k' l, runl Hs p b (wrap T k) = Some (a, b', k', l) -> k' = wrap T (k + ticks l).
Proof. intros T H WB RB BS A. exact (runl_ticks T H). Qed.
(** A u16 counter just before the wrap, an i32 counter just before its overflow. *)
Example C34_ex1 : ts_calls (mkIty false 16) 65530 [CM1 0; CIo 254; CWait 254 5; CNoMreq 0 1; CTs]
  = (65530 + 14 - 65536, [Some 65534; Some 65535; None; None; Some 8]).
Proof. reflexivity. Qed.
Example C34_ex2 : ts_calls (mkIty true 32) 2147483646 [CMreq 0; CIrq 7]
  = (-2147483641, [Some (-2147483647); Some (-2147483645)]).
Proof. reflexivity. Qed.
Print Assumptions C34_calls. Print Assumptions C34_wrap. Print Assumptions C34_run.
