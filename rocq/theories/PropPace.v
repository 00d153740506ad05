(** Property C52: instructions are short, and so is what [execute_with_limit] does after its limit. *)
From Coq Require Import ZArith Bool List Lia.
From Verif Require Import Base Parse Cpu Flavours Prog Trace Exec Range Clock Demo SpecState SpecIsa SpecPace IsaLink IsaRun Pace.
Import ListNotations.
Open Scope Z_scope.

(** A step takes 4 to 21 T-states besides wait states; one that accepts an interrupt at most 13 in mode 1, 19 in mode 2 and 23 in mode 0. *)
Theorem C52_step : forall Q T TS WB RB (FL : Flavour Q) (ch : chip T) absq, models FL ch absq ->
  forall BS CK (Hs : host TS WB RB BS CK) dbg (c : cpu Q) b k x b' k' l, wf c ->
  runl Hs (execute_next FL dbg c) b k = Some (x, b', k', l) ->
  Forall no_look l /\
  4 <= busy l <= match buses l with VIrq true :: _ => match im c with Mode0 => 23 | Mode1 => 13 | Mode2 => 19 end | _ => 21 end.
Proof. intros Q T TS WB RB FL ch absq M BS CK Hs. exact (next_lap FL ch absq (models_ok _ _ _ M) Hs). Qed.
(** [execute_with_limit] looks at the limit first and after every 4 to 23 T-states, and does nothing more when it is reached. *)
Theorem C52_paced : forall Q T TS WB RB (FL : Flavour Q) (ch : chip T) absq, models FL ch absq ->
  forall BS CK (Hs : host TS WB RB BS CK) da fuel (c : cpu Q) b k c' r b' k' l, wf c ->
  runl Hs (execute_with_limit FL da fuel c) b k = Some (Some (c', r), b', k', l) ->
  paced (match r with None => true | Some _ => false end) l.
Proof. intros Q T TS WB RB FL ch absq M BS CK Hs da fuel c b k c' r. exact (ewl_paced FL ch absq (models_ok _ _ _ M) Hs da fuel c b k (c', r)). Qed.
(** So on a clock that does not overflow it stops less than 23 T-states after the limit, besides wait states. *)
Theorem C52_overshoot : forall Q T TS WB RB (FL : Flavour Q) (ch : chip T) absq, models FL ch absq ->
  forall BS CK (Hs : host TS WB RB BS CK) now lim bot top, metered Hs now lim bot top ->
  forall da fuel (c : cpu Q) b k c' r b' k' l, wf c ->
  runl Hs (execute_with_limit FL da fuel c) b k = Some (Some (c', r), b', k', l) ->
  Forall (fun e => 0 <= held e) l -> lim + 22 + held_up l < top -> bot <= now k < top ->
  now k' = now k + (busy l + held_up l) /\ now k <= now k' <= Z.max (now k) (lim + 22 + held_up l) /\ (r = None -> lim <= now k').
Proof. intros Q T TS WB RB FL ch absq M BS CK Hs now lim bot top MT. exact (overshoot FL ch absq (models_ok _ _ _ M) Hs now lim bot top MT). Qed.
(** The crate's TsCounter is such a clock. *)
Theorem C52_ts_counter : forall WB RB BS T lim rdb wrm rio wio irq vec rti, 0 < bits T ->
  metered (ts_host (WB:=WB) (RB:=RB) (BS:=BS) T lim rdb wrm rio wio irq vec rti) (fun k => k) lim (lowest T) (highest T + 1).
Proof. exact @ts_metered. Qed.
(** With devices that ask for no wait states it comes to an end, within the number of instructions that the limit leaves room for. *)
Theorem C52_returns : forall Q T TS WB RB (FL : Flavour Q) (ch : chip T) absq, models FL ch absq ->
  forall BS CK (Hs : host TS WB RB BS CK) now lim bot top, metered Hs now lim bot top -> no_waits Hs ->
  forall da fuel (c : cpu Q) b k, wf c -> (da = true -> halt c = true -> prefix c = None /\ last_ei c = false) ->
  lim + 22 < top -> bot <= now k < top -> lim - now k <= 4 * (Z.of_nat fuel - 1) -> (0 < fuel)%nat ->
  exists c' r b' k' l, runl Hs (execute_with_limit FL da fuel c) b k = Some (Some (c', r), b', k', l) /\ held_up l = 0 /\
    now k' = now k + busy l /\ now k <= now k' <= Z.max (now k) (lim + 22) /\ (r = None -> lim <= now k') /\
    (forall e, r = Some e -> now k + 4 <= now k').
Proof. intros Q T TS WB RB FL ch absq M BS CK Hs now lim bot top MT NW. exact (returns FL ch absq (models_ok _ _ _ M) Hs now lim bot top MT NW). Qed.
Definition C52_all := (@C52_step, @C52_paced, @C52_overshoot, @C52_ts_counter, @C52_returns).
Print Assumptions C52_all.

(** The bounds are reached: NOP; LDIR; an interrupt in mode 0 whose device supplies ED, followed in memory by B0: LDIR again.
    One T-state before the limit, execution ends 22 T-states after it. *)
Example C52_ex : let m := poke 0x100 [0xED; 0xB0] m0 in let m' := poke 0x100 [0xB0] m0 in
  let c := set_bc 5 (nm 0x100) in
  option_map (fun x => busy (snd x)) (runl (rig 0 0) (execute_next NMOS false (nm 0)) m0 0) = Some 4 /\
  option_map (fun x => busy (snd x)) (runl (rig 0 0) (execute_next NMOS false c) m 0) = Some 21 /\
  option_map (fun x => busy (snd x)) (runl (rig 0 0xED) (execute_next NMOS false (set_iffs true true c)) m' 0) = Some 23 /\
  option_map (fun x => snd (fst x)) (runl (rig 1000 0xED) (execute_with_limit NMOS true 9 (set_iffs true true c)) m' 999) = Some 1022.
Proof. vm_compute. repeat split. Qed.
(** A clock that overflows before the limit is seen is not stopped by it: eight bits, limit 253, NOPs. *)
Definition small : host Z Z Z mem Z := ts_host (mkIty false 8) 253 (fun m a => u8 (m a)) (fun m a v _ => mupd m a v) dflt_read_io
  (fun m _ v _ => (m, (Some v, None))) (fun m _ => (m, false)) (fun m _ _ => (m, (255, None))) (fun m _ _ => (m, Some 77)).
Example C52_overflow :
  option_map (fun x => fst (fst (fst x))) (runl small (execute_with_limit NMOS true 200 (nm 0)) m0 0) = Some None /\
  option_map (fun x => snd (fst x)) (runl small (execute_with_limit NMOS true 200 (nm 0)) m0 1) = Some 253.
Proof. vm_compute. repeat split. Qed.
(** The bound on the number of instructions is the least: eight bits, limit 230, 57 NOPs do not reach it and 58 do. *)
Definition fair : host Z Z Z mem Z := ts_host (mkIty false 8) 230 (fun m a => u8 (m a)) (fun m a v _ => mupd m a v) dflt_read_io
  (fun m _ v _ => (m, (Some v, None))) (fun m _ => (m, false)) (fun m _ _ => (m, (255, None))) (fun m _ _ => (m, Some 77)).
Example C52_ex_returns : no_waits fair /\ metered fair (fun k => k) 230 0 256 /\
  option_map (fun x => fst (fst (fst x))) (runl fair (execute_with_limit NMOS true 57 (nm 0)) m0 0) = Some None /\
  exists c' b' l, runl fair (execute_with_limit NMOS true 58 (nm 0)) m0 0 = Some (Some (c', None), b', 232, l).
Proof.
  split; [now constructor|]. split; [exact (C52_ts_counter Z Z mem (mkIty false 8) 230 _ _ _ _ _ _ _ eq_refl)|].
  split; [vm_compute; reflexivity|]. vm_compute. eexists _, _, _. reflexivity.
Qed.
