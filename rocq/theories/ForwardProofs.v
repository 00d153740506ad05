From Coq Require Import ZArith Bool List Lia.
From Verif Require Import Base Prog Trace Forward SpecForward.
Import ListNotations.
Open Scope Z_scope.

Lemma fwd_in ms m : In m ms -> existsb (bmeth_eqb m) ms = true.
Proof. intros H. apply existsb_exists. exists m. split; [exact H|]. destruct m; reflexivity. Qed.
Lemma arms :
  (forall m, In m (clock_arm All)) /\ (forall m, In m (clock_arm Ref ++ clock_arm Mut)) /\
  (forall m, In m (io_all ++ memory_arm All)) /\ (forall m, In m (io_all ++ memory_arm Ref ++ memory_arm Mut)) /\
  NoDup (clock_arm Ref ++ clock_arm Mut) /\ NoDup (io_all ++ memory_arm Ref ++ memory_arm Mut).
Proof.
  repeat split; try (intros []; cbn; tauto);
    repeat (constructor; [cbn; intuition discriminate|]); constructor.
Qed.

Section Sim.
Context {TS WB RB : Type}.
Lemma cons_inside {W B V C X} (l : place W B) (k : place V C) w v e (x : option (X * B * C * list (ev TS WB RB))) :
  cons_log e (inside l k w v x) = inside l k w v (cons_log e x).
Proof. destruct x as [[[[? ?] ?] ?]|]; reflexivity. Qed.
Lemma inside_inside {W B V C X L} (l : place W B) (k : place V C) w v b c (x : option (X * B * C * L)) :
  lawful l -> lawful k -> inside l k (put_back l b w) (put_back k c v) x = inside l k w v x.
Proof. intros H1 H2. destruct x as [[[[? ?] ?] ?]|]; cbn; [|reflexivity]. now rewrite (put_put _ H1), (put_put _ H2). Qed.
Lemma inside_bus {W B V C X L} (l : place W B) (k : place V C) w v b (x : option (X * B * C * L)) :
  lawful l -> inside l k (put_back l b w) v x = inside l k w v x.
Proof. intros H1. destruct x as [[[[? ?] ?] ?]|]; cbn; [|reflexivity]. now rewrite (put_put _ H1). Qed.
Lemma inside_clock {W B V C X L} (l : place W B) (k : place V C) w v c (x : option (X * B * C * L)) :
  lawful k -> inside l k w (put_back k c v) x = inside l k w v x.
Proof. intros H1. destruct x as [[[[? ?] ?] ?]|]; cbn; [|reflexivity]. now rewrite (put_put _ H1). Qed.

Context {B C W V : Type} (l : place W B) (k : place V C) (ms : list bmeth) (h : host TS WB RB B C).
Context (Hl : lawful l) (Hk : lawful k) (Hm : forall m, In m ms \/ not_overridden h m).
Let wr := wrapper l k ms h.

Lemma w_read_io w p t : h_read_io wr w p t = call l (fun b => h_read_io h b p t) w.
Proof.
  unfold wr, wrapper, call; cbn [h_read_io]. destruct (Hm Read_io) as [E|E]; [now rewrite (fwd_in _ _ E)|].
  destruct (existsb _ _); [reflexivity|]. rewrite E. now rewrite (put_get _ Hl).
Qed.
Lemma w_write_io w p d t : h_write_io wr w p d t = call l (fun b => h_write_io h b p d t) w.
Proof.
  unfold wr, wrapper, call; cbn [h_write_io]. destruct (Hm Write_io) as [E|E]; [now rewrite (fwd_in _ _ E)|].
  destruct (existsb _ _); [reflexivity|]. rewrite E. now rewrite (put_get _ Hl).
Qed.
Lemma w_is_irq w t : h_is_irq wr w t = call l (fun b => h_is_irq h b t) w.
Proof.
  unfold wr, wrapper, call; cbn [h_is_irq]. destruct (Hm Is_irq) as [E|E]; [now rewrite (fwd_in _ _ E)|].
  destruct (existsb _ _); [reflexivity|]. rewrite E. now rewrite (put_get _ Hl).
Qed.
Lemma w_irq_data w a t : h_irq_data wr w a t = call l (fun b => h_irq_data h b a t) w.
Proof.
  unfold wr, wrapper, call; cbn [h_irq_data]. destruct (Hm Irq_data) as [E|E]; [now rewrite (fwd_in _ _ E)|].
  destruct (existsb _ _); [reflexivity|]. rewrite E. now rewrite (put_get _ Hl).
Qed.
Lemma w_reti w a t : h_reti wr w a t = call l (fun b => h_reti h b a t) w.
Proof.
  unfold wr, wrapper, call; cbn [h_reti]. destruct (Hm Reti_) as [E|E]; [now rewrite (fwd_in _ _ E)|].
  destruct (existsb _ _); [reflexivity|]. rewrite E. now rewrite (put_get _ Hl).
Qed.
Lemma w_write_mem w a v t : h_write_mem wr w a v t = call_ l (fun b => h_write_mem h b a v t) w.
Proof.
  unfold wr, wrapper, call_; cbn [h_write_mem]. destruct (Hm Write_mem) as [E|E]; [now rewrite (fwd_in _ _ E)|].
  destruct (existsb _ _); [reflexivity|]. rewrite E. now rewrite (put_get _ Hl).
Qed.
Lemma w_read_debug w a : h_read_debug wr w a = call l (fun b => h_read_debug h b a) w.
Proof.
  unfold wr, wrapper, call; cbn [h_read_debug]. destruct (Hm Read_debug) as [E|E]; [now rewrite (fwd_in _ _ E)|].
  destruct (existsb _ _); [reflexivity|]. rewrite E. now rewrite (put_get _ Hl).
Qed.
Lemma w_read_mem w a t : h_read_mem wr w a t = call l (fun b => h_read_mem h b a t) w.
Proof.
  assert (D : h_read_mem wr w a t = if existsb (bmeth_eqb Read_mem) ms then call l (fun b => h_read_mem h b a t) w else h_read_debug wr w a)
    by reflexivity.
  rewrite D. destruct (Hm Read_mem) as [E|E]; [now rewrite (fwd_in _ _ E)|].
  destruct (existsb _ _); [reflexivity|]. rewrite w_read_debug. unfold call. now rewrite E.
Qed.
Lemma w_read_opcode w a i t : h_read_opcode wr w a i t = call l (fun b => h_read_opcode h b a i t) w.
Proof.
  assert (D : h_read_opcode wr w a i t = if existsb (bmeth_eqb Read_opcode) ms then call l (fun b => h_read_opcode h b a i t) w else h_read_debug wr w a)
    by reflexivity.
  rewrite D. destruct (Hm Read_opcode) as [E|E]; [now rewrite (fwd_in _ _ E)|].
  destruct (existsb _ _); [reflexivity|]. rewrite w_read_debug. unfold call. now rewrite E.
Qed.
Lemma w_read_mem16 w a t : h_read_mem16 wr w a t = call l (fun b => h_read_mem16 h b a t) w.
Proof.
  assert (D : h_read_mem16 wr w a t = if existsb (bmeth_eqb Read_mem16) ms then call l (fun b => h_read_mem16 h b a t) w
    else let (w, lo) := h_read_debug wr w a in let (w, hi) := h_read_debug wr w (u16 (a + 1)) in (w, u8 lo + 256 * u8 hi))
    by reflexivity.
  rewrite D. destruct (Hm Read_mem16) as [E|E]; [now rewrite (fwd_in _ _ E)|].
  destruct (existsb _ _); [reflexivity|]. rewrite w_read_debug. unfold call at 1 2. rewrite E.
  destruct (h_read_debug h (taken l w) a) as [b1 lo]. rewrite w_read_debug. unfold call. rewrite (get_put _ Hl).
  destruct (h_read_debug h b1 (u16 (a + 1))) as [b2 hi]. now rewrite (put_put _ Hl).
Qed.
Lemma runl_inside {X} (p : prog TS WB RB X) : forall w v, runl wr p w v = inside l k w v (runl h p (taken l w) (taken k v)).
Proof.
  induction p; intros w0 v0; cbn [runl];
  rewrite ?w_read_io, ?w_write_io, ?w_is_irq, ?w_irq_data, ?w_reti, ?w_read_mem, ?w_read_mem16, ?w_read_opcode, ?w_write_mem, ?w_read_debug;
  try (change (h_is_past_limit wr v0) with (h_is_past_limit h (taken k v0)));
  try (change (h_as_ts wr v0) with (h_as_ts h (taken k v0)));
  try (change (h_add_no_mreq wr v0 addr n) with (call_ k (fun c => h_add_no_mreq h c addr n) v0));
  try (change (h_add_wait wr v0 bus ws) with (call_ k (fun c => h_add_wait h c bus ws) v0));
  try (match goal with |- context [h_add_irq wr v0 ?a] => change (h_add_irq wr v0 a) with (call k (fun c => h_add_irq h c a) v0) end);
  try (match goal with |- context [h_add_m1 wr v0 ?a] => change (h_add_m1 wr v0 a) with (call k (fun c => h_add_m1 h c a) v0) end);
  try (match goal with |- context [h_add_mreq wr v0 ?a] => change (h_add_mreq wr v0 a) with (call k (fun c => h_add_mreq h c a) v0) end);
  try (match goal with |- context [h_add_io wr v0 ?a] => change (h_add_io wr v0 a) with (call k (fun c => h_add_io h c a) v0) end);
  unfold call, call_;
  repeat match goal with |- context [let (_, _) := ?x in _] => lazymatch x with context [let (_, _) := _ in _] => fail | _ => destruct x end end;
  repeat match goal with H : forall _, _ |- _ => rewrite H; clear H end;
  rewrite ?cons_inside, ?(get_put _ Hl), ?(get_put _ Hk), ?(inside_bus l k _ _ _ _ Hl), ?(inside_clock l k _ _ _ _ Hk);
  try reflexivity.
  - cbn [inside]. now rewrite (put_get _ Hl), (put_get _ Hk).
Qed.
End Sim.

(** ** The wrapper of the documentation *)
Lemma bus_lawful {B R} : lawful (bus (B := B) (R := R)).
Proof. constructor; intros; try destruct w; reflexivity. Qed.
Lemma itself_lawful {C} : lawful (itself (C := C)).
Proof. constructor; intros; reflexivity. Qed.
Definition captured {TS WB RB B C X} (s : option Z) (x : option (X * B * C * list (ev TS WB RB)))
  : option (X * (B * option Z) * C * list (ev TS WB RB)) :=
  match x with
  | Some (a, b, c, log) => Some (a, (b, last_irq_data log s), c, log)
  | None => None
  end.
Lemma cons_captured {TS WB RB B C X} s e (x : option (X * B * C * list (ev TS WB RB))) :
  cons_log e (captured (match e with EIrqData _ _ v _ => Some v | _ => s end) x) = captured s (cons_log e x).
Proof. destruct x as [[[[? ?] ?] ?]|]; reflexivity. Qed.
Lemma debug_bus_runs {TS WB RB B C X} (h : host TS WB RB B C) (p : prog TS WB RB X) : forall b s c,
  runl (debug_bus h) p (b, s) c = captured s (runl h p b c).
Proof.
  induction p; intros b0 s0 c0; cbn [runl debug_bus with_irq_data wrapper h_is_past_limit h_add_irq h_add_no_mreq h_add_m1 h_add_mreq
    h_add_io h_add_wait h_as_ts h_read_io h_write_io h_is_irq h_irq_data h_reti h_read_mem h_read_mem16 h_read_opcode h_write_mem
    h_read_debug existsb bmeth_eqb memory_arm app orb call call_ itself Forward.bus taken put_back fst snd]; unfold call, call_; cbn [itself Forward.bus taken put_back fst snd];
  repeat match goal with |- context [let (_, _) := ?x in _] => lazymatch x with context [let (_, _) := _ in _] => fail | _ => destruct x end end;
  repeat match goal with H : forall _, _ |- _ => rewrite H; clear H end;
  try reflexivity;
  match goal with |- cons_log ?e _ = _ => exact (cons_captured _ e _) end.
Qed.
