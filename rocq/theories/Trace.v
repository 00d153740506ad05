(** Execution with a log of all host calls, and the weakest-precondition calculus used by the proofs.

    [runl] is [run] of [Prog.v] that also returns, in order, every host call made together with the
    answer received.  [wpl p P] says: whatever (well-typed) answers a host gives, [p] does not get stuck,
    and its result and log satisfy [P].  [wpl_run] links the two for every host. *)
From Coq Require Import ZArith Bool List Lia.
From Verif Require Import Base Flags Parse Prog.
Import ListNotations.
Open Scope Z_scope.

(** A host call with its answer.  [K..]: clock calls. *)
Inductive ev (TS WB RB : Type) : Type :=
| KPast (b : bool) | KIrq (a : Z) (t : TS) | KNoMreq (a n : Z) | KM1 (a : Z) (t : TS)
| KMreq (a : Z) (t : TS) | KIo (a : Z) (t : TS) | KWait (a n : Z) | KTs (t : TS)
| EIn (p : Z) (t : TS) (v : Z) (w : option Z)
| EOut (p d : Z) (t : TS) (b : option WB) (w : option Z)
| EIsIrq (t : TS) (b : bool)
| EIrqData (a : Z) (t : TS) (v : Z) (w : option Z)
| EReti (a : Z) (t : TS) (b : option RB)
| ERd (a : Z) (t : TS) (v : Z) | ERd16 (a : Z) (t : TS) (v : Z)
| EOp (a i : Z) (t : TS) (v : Z) | EWr (a v : Z) (t : TS) | ERdDebug (a v : Z)
| EDebug (d : CpuDebug).
Arguments KPast {TS WB RB}. Arguments KIrq {TS WB RB}. Arguments KNoMreq {TS WB RB}.
Arguments KM1 {TS WB RB}. Arguments KMreq {TS WB RB}. Arguments KIo {TS WB RB}.
Arguments KWait {TS WB RB}. Arguments KTs {TS WB RB}. Arguments EIn {TS WB RB}.
Arguments EOut {TS WB RB}. Arguments EIsIrq {TS WB RB}. Arguments EIrqData {TS WB RB}.
Arguments EReti {TS WB RB}. Arguments ERd {TS WB RB}. Arguments ERd16 {TS WB RB}.
Arguments EOp {TS WB RB}. Arguments EWr {TS WB RB}. Arguments ERdDebug {TS WB RB}.
Arguments EDebug {TS WB RB}.

Section Trace.
Context {TS WB RB : Type}.
Notation prog := (prog TS WB RB).
Notation ev := (ev TS WB RB).

Definition cons_log {A BS CK} (e : ev) (x : option (A * BS * CK * list ev)) :=
  match x with Some (a, b, c, l) => Some (a, b, c, e :: l) | None => None end.

(** [run] with a log. *)
Fixpoint runl {BS CK A : Type} (Hs : host TS WB RB BS CK) (p : prog A) (b : BS) (c : CK)
  : option (A * BS * CK * list ev) :=
  match p with
  | Ret a => Some (a, b, c, [])
  | Stuck => None
  | IsPastLimit k => let x := h_is_past_limit Hs c in cons_log (KPast x) (runl Hs (k x) b c)
  | AddIrq a k => let (c', t) := h_add_irq Hs c a in cons_log (KIrq a t) (runl Hs (k t) b c')
  | AddNoMreq a n k => cons_log (KNoMreq a n) (runl Hs k b (h_add_no_mreq Hs c a n))
  | AddM1 a k => let (c', t) := h_add_m1 Hs c a in cons_log (KM1 a t) (runl Hs (k t) b c')
  | AddMreq a k => let (c', t) := h_add_mreq Hs c a in cons_log (KMreq a t) (runl Hs (k t) b c')
  | AddIo a k => let (c', t) := h_add_io Hs c a in cons_log (KIo a t) (runl Hs (k t) b c')
  | AddWait a n k => cons_log (KWait a n) (runl Hs k b (h_add_wait Hs c a n))
  | AsTs k => let t := h_as_ts Hs c in cons_log (KTs t) (runl Hs (k t) b c)
  | ReadIo a t k => let (b', r) := h_read_io Hs b a t in
      cons_log (EIn a t (u8 (fst r)) (snd r)) (runl Hs (k (u8 (fst r)) (snd r)) b' c)
  | WriteIo a v t k => let (b', r) := h_write_io Hs b a v t in
      cons_log (EOut a v t (fst r) (snd r)) (runl Hs (k (fst r) (snd r)) b' c)
  | IsIrq t k => let (b', r) := h_is_irq Hs b t in cons_log (EIsIrq t r) (runl Hs (k r) b' c)
  | IrqData a t k => let (b', r) := h_irq_data Hs b a t in
      cons_log (EIrqData a t (u8 (fst r)) (snd r)) (runl Hs (k (u8 (fst r)) (snd r)) b' c)
  | Reti a t k => let (b', r) := h_reti Hs b a t in cons_log (EReti a t r) (runl Hs (k r) b' c)
  | ReadMem a t k => let (b', v) := h_read_mem Hs b a t in
      cons_log (ERd a t (u8 v)) (runl Hs (k (u8 v)) b' c)
  | ReadMem16 a t k => let (b', v) := h_read_mem16 Hs b a t in
      cons_log (ERd16 a t (u16 v)) (runl Hs (k (u16 v)) b' c)
  | ReadOpcode a i t k => let (b', v) := h_read_opcode Hs b a i t in
      cons_log (EOp a i t (u8 v)) (runl Hs (k (u8 v)) b' c)
  | WriteMem a v t k => cons_log (EWr a v t) (runl Hs k (h_write_mem Hs b a v t) c)
  | ReadDebug a k => let (b', v) := h_read_debug Hs b a in
      cons_log (ERdDebug a (u8 v)) (runl Hs (k (u8 v)) b' c)
  | Debug d k => cons_log (EDebug d) (runl Hs k b c)
  end.

(** The debugger calls of a log. *)
Fixpoint debugs (l : list ev) : list CpuDebug :=
  match l with [] => [] | EDebug d :: l => d :: debugs l | _ :: l => debugs l end.

(** Logging does not change the execution. *)
Lemma run_runl {BS CK A} (Hs : host TS WB RB BS CK) (p : prog A) : forall b c,
  run Hs p b c = match runl Hs p b c with
                 | Some (a, b', c', l) => Some (a, b', c', debugs l) | None => None end.
Proof.
  induction p; intros b0 c0; cbn [run runl];
  repeat match goal with
    | |- context [let (_, _) := ?x in _] => destruct x
    | H : forall b c, run Hs ?k b c = _ |- _ => rewrite H; clear H
    | H : forall x b c, run Hs (?k x) b c = _ |- _ => rewrite H; clear H
    | H : forall x y b c, run Hs (?k x y) b c = _ |- _ => rewrite H; clear H
  end; try reflexivity;
  match goal with |- context [runl ?h ?p ?b ?c] => destruct (runl h p b c) as [[[[? ?] ?] ?]|] end;
  reflexivity.
Qed.

Fixpoint wpl {A} (p : prog A) (P : A -> list ev -> Prop) : Prop :=
  match p with
  | Ret a => P a []
  | Stuck => False
  | IsPastLimit k => forall x, wpl (k x) (fun y l => P y (KPast x :: l))
  | AddIrq a k => forall t, wpl (k t) (fun y l => P y (KIrq a t :: l))
  | AddNoMreq a n k => wpl k (fun y l => P y (KNoMreq a n :: l))
  | AddM1 a k => forall t, wpl (k t) (fun y l => P y (KM1 a t :: l))
  | AddMreq a k => forall t, wpl (k t) (fun y l => P y (KMreq a t :: l))
  | AddIo a k => forall t, wpl (k t) (fun y l => P y (KIo a t :: l))
  | AddWait a n k => wpl k (fun y l => P y (KWait a n :: l))
  | AsTs k => forall t, wpl (k t) (fun y l => P y (KTs t :: l))
  | ReadIo a t k => forall v w, byte v -> wpl (k v w) (fun y l => P y (EIn a t v w :: l))
  | WriteIo a d t k => forall v w, wpl (k v w) (fun y l => P y (EOut a d t v w :: l))
  | IsIrq t k => forall x, wpl (k x) (fun y l => P y (EIsIrq t x :: l))
  | IrqData a t k => forall v w, byte v -> wpl (k v w) (fun y l => P y (EIrqData a t v w :: l))
  | Reti a t k => forall x, wpl (k x) (fun y l => P y (EReti a t x :: l))
  | ReadMem a t k => forall v, byte v -> wpl (k v) (fun y l => P y (ERd a t v :: l))
  | ReadMem16 a t k => forall v, word v -> wpl (k v) (fun y l => P y (ERd16 a t v :: l))
  | ReadOpcode a i t k => forall v, byte v -> wpl (k v) (fun y l => P y (EOp a i t v :: l))
  | WriteMem a v t k => wpl k (fun y l => P y (EWr a v t :: l))
  | ReadDebug a k => forall v, byte v -> wpl (k v) (fun y l => P y (ERdDebug a v :: l))
  | Debug d k => wpl k (fun y l => P y (EDebug d :: l))
  end.

Lemma u8_byte' x : byte (u8 x).
Proof. unfold byte, u8. apply Z.mod_pos_bound. lia. Qed.
Lemma u16_word' x : word (u16 x).
Proof. unfold word, u16. apply Z.mod_pos_bound. lia. Qed.

Theorem wpl_run {BS CK A} (Hs : host TS WB RB BS CK) (p : prog A) : forall P b c, wpl p P ->
  exists a b' c' l, runl Hs p b c = Some (a, b', c', l) /\ P a l.
Proof.
  induction p; intros P b0 c0 HP; cbn [wpl] in HP; cbn [runl].
  1: { exists a, b0, c0, []. split; [reflexivity|exact HP]. }
  1: contradiction.
  all: repeat match goal with |- context [let (_, _) := ?x in _] => let E := fresh in destruct x eqn:E end.
  all: match goal with
    | IH : forall P b c, wpl ?k P -> _, HP : wpl ?k _ |- context [runl ?h ?k ?b ?c] =>
        destruct (IH _ b c HP) as (? & ? & ? & ? & -> & ?)
    | IH : forall x P b c, wpl (?k x) P -> _ |- context [runl ?h (?k ?x) ?b ?c] =>
        destruct (IH x _ b c (HP x)) as (? & ? & ? & ? & -> & ?)
    | IH : forall x P b c, wpl (?k x) P -> _ |- context [runl ?h (?k (u8 ?x)) ?b ?c] =>
        destruct (IH _ _ b c (HP _ (u8_byte' x))) as (? & ? & ? & ? & -> & ?)
    | IH : forall x P b c, wpl (?k x) P -> _ |- context [runl ?h (?k (u16 ?x)) ?b ?c] =>
        destruct (IH _ _ b c (HP _ (u16_word' x))) as (? & ? & ? & ? & -> & ?)
    | IH : forall x y P b c, wpl (?k x y) P -> _ |- context [runl ?h (?k ?x ?y) ?b ?c] =>
        destruct (IH x y _ b c (HP x y)) as (? & ? & ? & ? & -> & ?)
    | IH : forall x y P b c, wpl (?k x y) P -> _ |- context [runl ?h (?k (u8 ?x) ?y) ?b ?c] =>
        destruct (IH _ y _ b c (HP _ y (u8_byte' x))) as (? & ? & ? & ? & -> & ?)
    end.
  all: cbn [cons_log]; eauto 8.
Qed.

Lemma wpl_mono {A} (p : prog A) : forall (P R : A -> list ev -> Prop),
  (forall a l, P a l -> R a l) -> wpl p P -> wpl p R.
Proof.
  induction p; intros P R HPR HP; cbn [wpl] in *; auto; intros;
    (match goal with IH : _ |- wpl _ _ => eapply IH; [|eauto]; cbn; intros; auto end).
Qed.

Lemma wpl_bind {A B} (p : prog A) (f : A -> prog B) : forall P,
  wpl p (fun a l1 => wpl (f a) (fun b l2 => P b (l1 ++ l2))) -> wpl (pbind p f) P.
Proof.
  induction p; intros P HP; cbn [pbind wpl] in *; auto; intros;
    match goal with IH : _ |- wpl (pbind _ _) _ => apply IH end; first [exact HP | apply HP; assumption].
Qed.

Lemma wpl_and {A} (p : prog A) : forall P R, wpl p P -> wpl p R -> wpl p (fun a l => P a l /\ R a l).
Proof.
  induction p; intros P R HP HR; cbn [wpl] in *; auto; intros;
  match goal with
  | IH : forall P R, wpl ?k P -> wpl ?k R -> _ |- _ => apply IH; auto
  | IH : forall x P R, _ |- wpl (?k ?x) _ => apply (IH x); auto
  | IH : forall x y P R, _ |- wpl (?k ?x ?y) _ => apply (IH x y); auto
  end.
Qed.
End Trace.
