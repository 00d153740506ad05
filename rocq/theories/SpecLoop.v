(** What [execute_with_limit] should do: call [execute_next] until the limit is reached or a break is requested. *)
From Coq Require Import ZArith Bool List.
From Verif Require Import Base Parse Cpu Flavours Prog Trace Exec.
Import ListNotations.
Open Scope Z_scope.

Section Drive.
Context {Q TS WB RB : Type}.
Variable FL : Flavour Q.
(** At most [fuel] steps; [None] when they were not enough. *)
Fixpoint drive (fuel : nat) (c : cpu Q) : prog TS WB RB (option (cpu Q * result WB RB)) :=
  match fuel with
  | O => Ret None
  | S n =>
      IsPastLimit (fun past =>
      if past then Ret (Some (c, None))
      else pbind (execute_next FL false c) (fun x =>
           match snd x with
           | None => drive n (fst x)
           | Some e => Ret (Some (fst x, Some e))
           end))
  end.
End Drive.
(** A device put the op-code of EI (0xFB) on the bus while its interrupt was being accepted. *)
Definition fb_ack {TS WB RB} (e : ev TS WB RB) : Prop :=
  match e with EIrqData _ _ v _ => v = 0xFB | _ => False end.
(** The same CPU, except that after such an acknowledge the "after EI" flag may be left set. *)
Definition same_but_ei {Q TS WB RB} (l : list (ev TS WB RB)) (c d : cpu Q) : Prop :=
  c = d \/ (c = set_last_ei true d /\ Exists fb_ack l).
(** Sampling the interrupt line does not change the devices. *)
Definition irq_pure {TS WB RB BS CK} (H : host TS WB RB BS CK) : Prop := forall b t, fst (h_is_irq H b t) = b.
(** The bus and clock log without the looks at the interrupt line (and at the clock for it). *)
Definition not_sample {TS WB RB} (e : ev TS WB RB) : bool := match e with KTs _ | EIsIrq _ _ => false | _ => true end.
Definition unsampled {TS WB RB} (l : list (ev TS WB RB)) : list (ev TS WB RB) := filter not_sample l.
(** A clock that does not wrap before the limit: [now] never goes back, an M1 cycle takes 4 T-states or more, the
    limit is seen once it is reached; and devices ask for no negative number of wait states. *)
Record ticking {TS WB RB BS CK} (H : host TS WB RB BS CK) (now : CK -> Z) (lim : Z) : Prop := mkTicking {
  tk_past k : lim <= now k -> h_is_past_limit H k = true;
  tk_m1 k a : now k + 4 <= now (fst (h_add_m1 H k a));
  tk_irq k a : now k <= now (fst (h_add_irq H k a));
  tk_mreq k a : now k <= now (fst (h_add_mreq H k a));
  tk_io k a : now k <= now (fst (h_add_io H k a));
  tk_idle k a n : 0 <= n -> now k <= now (h_add_no_mreq H k a n);
  tk_wait k a n : 0 <= n -> now k <= now (h_add_wait H k a n);
  tk_in b p t n : snd (snd (h_read_io H b p t)) = Some n -> 0 <= n;
  tk_out b p v t n : snd (snd (h_write_io H b p v t)) = Some n -> 0 <= n;
  tk_ack b p t n : snd (snd (h_irq_data H b p t)) = Some n -> 0 <= n }.

(** An interrupt line seen on is on still when looked at again at once. *)
Definition steady {TS WB RB} (l : list (ev TS WB RB)) : Prop :=
  forall l1 l2 t t' q, l = l1 ++ KTs t :: EIsIrq t true :: KTs t' :: EIsIrq t' q :: l2 -> q = true.
(** States reachable from reset as in [reach] with [execute_with_limit] called on hosts that do not supply 0xFB when an
    interrupt is accepted and whose interrupt line is steady. *)
Inductive reach_calm {Q} (TS WB RB : Type) (FL : Flavour Q) (q0 : Q) : cpu Q -> Prop :=
| rc_reset : reach_calm TS WB RB FL q0 (cpu_new FL q0)
| rc_next dbg c BS CK (Hs : host TS WB RB BS CK) b k c' x b' k' l :
    reach_calm TS WB RB FL q0 c -> runl Hs (execute_next FL dbg c) b k = Some ((c', x), b', k', l) ->
    reach_calm TS WB RB FL q0 c'
| rc_exec dbg code c BS CK (Hs : host TS WB RB BS CK) b k c' x b' k' l : byte code ->
    reach_calm TS WB RB FL q0 c -> runl Hs (execute_instruction FL dbg code c) b k = Some ((c', x), b', k', l) ->
    reach_calm TS WB RB FL q0 c'
| rc_irq dbg c BS CK (Hs : host TS WB RB BS CK) b k c' x b' k' l :
    reach_calm TS WB RB FL q0 c -> runl Hs (irq FL dbg c) b k = Some ((c', x), b', k', l) ->
    reach_calm TS WB RB FL q0 c'
| rc_nmi c BS CK (Hs : host TS WB RB BS CK) b k c' x b' k' l :
    reach_calm TS WB RB FL q0 c -> runl Hs (nmi FL c) b k = Some ((c', x), b', k', l) ->
    reach_calm TS WB RB FL q0 c'
| rc_limit fuel c BS CK (Hs : host TS WB RB BS CK) b k c' x b' k' l : steady l -> ~ Exists fb_ack l ->
    reach_calm TS WB RB FL q0 c -> runl Hs (execute_with_limit FL false fuel c) b k = Some (Some (c', x), b', k', l) ->
    reach_calm TS WB RB FL q0 c'.
