(** Specification of a T-states counter, and proofs about [TsCounter]. *)
From Coq Require Import ZArith Bool List Lia.
From Verif Require Import Base Flags Parse Prog Trace Clock.
Import ListNotations.
Open Scope Z_scope.

(** The calls of the [Clock] trait. *)
Inductive call := CIrq (a : Z) | CNoMreq (a n : Z) | CM1 (a : Z) | CMreq (a : Z) | CIo (a : Z)
                | CWait (a n : Z) | CTs.
(** Documented T-states of each call. *)
Definition dur (x : call) : Z :=
  match x with CIrq _ => 6 | CNoMreq _ n => n | CM1 _ => 4 | CMreq _ => 3 | CIo _ => 4 | CWait _ n => n | CTs => 0 end.
(** Documented offset of the returned timestamp from the moment of the call: INT acknowledge 2 T-states
    (IORQ low), I/O 1 T-state (IORQ low), memory and M1: the end of the cycle. *)
Definition stamp (x : call) : option Z :=
  match x with CIrq _ => Some 2 | CM1 _ => Some 4 | CMreq _ => Some 3 | CIo _ => Some 1 | CTs => Some 0
             | CNoMreq _ _ | CWait _ _ => None end.
Definition total (l : list call) : Z := fold_right (fun x s => dur x + s) 0 l.
(** Times at which the calls are made and their expected timestamps, in exact arithmetic. *)
Fixpoint stamps (now : Z) (l : list call) : list (option Z) :=
  match l with [] => [] | x :: l => option_map (Z.add now) (stamp x) :: stamps (now + dur x) l end.

(** The model's [TsCounter] making the calls. *)
Definition ts_call (T : itype) (c : Z) (x : call) : Z * option Z :=
  match x with
  | CIrq a => let (c, t) := ts_add_irq T c a in (c, Some t)
  | CNoMreq a n => (ts_add_no_mreq T c a n, None)
  | CM1 a => let (c, t) := ts_add_m1 T c a in (c, Some t)
  | CMreq a => let (c, t) := ts_add_mreq T c a in (c, Some t)
  | CIo a => let (c, t) := ts_add_io T c a in (c, Some t)
  | CWait a n => (ts_add_wait T c a n, None)
  | CTs => (c, Some (ts_as_timestamp c))
  end.
Fixpoint ts_calls (T : itype) (c : Z) (l : list call) : Z * list (option Z) :=
  match l with
  | [] => (c, [])
  | x :: l => let (c', t) := ts_call T c x in let (c'', ts) := ts_calls T c' l in (c'', t :: ts)
  end.

(** [wrap] gives the representative of the residue class that lies in the range of the type. *)
Definition in_type (T : itype) (x : Z) : Prop :=
  if signed T then - 2 ^ (bits T - 1) <= x < 2 ^ (bits T - 1) else 0 <= x < 2 ^ bits T.
Section W.
Variable T : itype.
Hypothesis Hb : 0 < bits T.
Lemma half : 2 ^ bits T = 2 * 2 ^ (bits T - 1).
Proof. rewrite <- Z.pow_succ_r by lia. f_equal. lia. Qed.
Lemma pow_pos : 0 < 2 ^ (bits T - 1).
Proof. apply Z.pow_pos_nonneg; lia. Qed.
Lemma wrap_mod x : wrap T x mod 2 ^ bits T = x mod 2 ^ bits T.
Proof.
  pose proof half. pose proof pow_pos. unfold wrap.
  destruct (signed T && _).
  - rewrite Zminus_mod, Z_mod_same_full, Z.sub_0_r, !Zmod_mod. reflexivity.
  - apply Zmod_mod.
Qed.
Lemma wrap_range x : in_type T (wrap T x).
Proof.
  pose proof half as E. pose proof pow_pos. unfold in_type, wrap. cbv zeta.
  pose proof (Z.mod_pos_bound x (2 ^ bits T)) as HM.
  assert (D : 2 ^ bits T / 2 = 2 ^ (bits T - 1)) by (rewrite E, Z.mul_comm; apply Z.div_mul; lia).
  rewrite D. destruct (signed T); cbn [andb]; [|lia].
  destruct (Z.leb_spec (2 ^ (bits T - 1)) (x mod 2 ^ bits T)); lia.
Qed.
Lemma wrap_unique x y : in_type T x -> x mod 2 ^ bits T = y mod 2 ^ bits T -> x = wrap T y.
Proof.
  intros Hx E. pose proof (wrap_range y) as Hy. rewrite <- (wrap_mod y) in E.
  pose proof half as HH. pose proof pow_pos as HP. unfold in_type in *.
  set (w := wrap T y) in *. clearbody w.
  assert (exists q, x = w + q * 2 ^ bits T) as [q ->].
  { exists ((x - w) / 2 ^ bits T).
    assert ((x - w) mod 2 ^ bits T = 0) by (rewrite Zminus_mod, E, Z.sub_diag; reflexivity).
    pose proof (Z.div_mod (x - w) (2 ^ bits T)). lia. }
  assert (HQ : - (2 ^ bits T) < q * 2 ^ bits T < 2 ^ bits T) by (destruct (signed T); lia).
  assert (0 < 2 ^ bits T) by lia. assert (q = 0) by nia. subst q. lia.
Qed.
Lemma wrap_add x d : wrap T (wrap T x + d) = wrap T (x + d).
Proof.
  apply wrap_unique; [apply wrap_range|]. rewrite wrap_mod.
  rewrite Zplus_mod, wrap_mod, <- Zplus_mod. reflexivity.
Qed.
Lemma wrap_id x : in_type T x -> wrap T x = x.
Proof. intros. symmetry. now apply wrap_unique. Qed.

Lemma ts_calls_ok l : forall now, 
  ts_calls T (wrap T now) l =
  (wrap T (now + total l), map (option_map (wrap T)) (stamps now l)).
Proof.
  induction l as [|x l IH]; intros now.
  - cbn. now rewrite Z.add_0_r.
  - assert (E : ts_call T (wrap T now) x =
      (wrap T (now + dur x), option_map (wrap T) (option_map (Z.add now) (stamp x)))).
    { destruct x; cbn; unfold ts_add_irq, ts_add_no_mreq, ts_add_m1, ts_add_mreq, ts_add_io, ts_add_wait,
        ts_as_timestamp; rewrite ?wrap_add, ?Z.add_0_r; reflexivity. }
    cbn [ts_calls]. rewrite E, IH. cbn [total fold_right stamps map]. now rewrite Z.add_assoc.
Qed.

(** ** The clock over a whole run *)
Definition ev_dur {TS WB RB} (e : ev TS WB RB) : Z :=
  match e with
  | KIrq _ _ => 6 | KNoMreq _ n => n | KM1 _ _ => 4 | KMreq _ _ => 3 | KIo _ _ => 4 | KWait _ n => n
  | _ => 0
  end.
Definition ticks {TS WB RB} (l : list (ev TS WB RB)) : Z := fold_right (fun e s => ev_dur e + s) 0 l.

(** Clock part of a host that is a [TsCounter<T>]. *)
Definition is_ts {WB RB BS} (Hs : host Z WB RB BS Z) : Prop :=
  h_add_irq Hs = ts_add_irq T /\ h_add_no_mreq Hs = ts_add_no_mreq T /\ h_add_m1 Hs = ts_add_m1 T /\
  h_add_mreq Hs = ts_add_mreq T /\ h_add_io Hs = ts_add_io T /\ h_add_wait Hs = ts_add_wait T /\
  h_as_ts Hs = ts_as_timestamp.

Lemma runl_ticks {WB RB BS A} (Hs : host Z WB RB BS Z) (p : prog Z WB RB A) : is_ts Hs ->
  forall b k a b' k' l, runl Hs p b (wrap T k) = Some (a, b', k', l) -> k' = wrap T (k + ticks l).
Proof.
  intros (H1 & H2 & H3 & H4 & H5 & H6 & H7).
  induction p; intros b0 k0 a0 b1 k1 l0 E; cbn [runl] in E; cbv zeta in E.
  1: { injection E as <- <- <- <-. cbn. now rewrite Z.add_0_r. }
  1: discriminate.
  all: rewrite ?H1, ?H2, ?H3, ?H4, ?H5, ?H6, ?H7 in E;
    unfold ts_add_irq, ts_add_no_mreq, ts_add_m1, ts_add_mreq, ts_add_io, ts_add_wait, ts_as_timestamp in E;
    cbv beta iota zeta in E; rewrite ?wrap_add in E.
  all: repeat match type of E with context [let (_, _) := ?x in _] => destruct x end.
  all: match type of E with cons_log _ ?x = _ => destruct x as [[[[? ?] ?] ?]|] eqn:F; [|discriminate] end.
  all: injection E as <- <- <- <-.
  all: match goal with IH : _ |- _ => apply IH in F end; subst; f_equal;
    unfold ticks; cbn [fold_right ev_dur]; unfold M1_CYCLE_TS, MEMRW_CYCLE_TS, IO_CYCLE_TS, IRQ_ACK_CYCLE_TS; lia.
Qed.
End W.
