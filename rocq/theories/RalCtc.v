(** The counter/timer chip of the example computer RAL 1243 (examples/ral1243/src/ctc.rs) and its trigger lines
    (examples/ral1243/src/ctc_trigger.rs).

    As in RalBus.v [None] is a panic, of overflowing [u32] arithmetic too.  The two cells shared by an active and a passive trigger are part of
    a [line], and the channels work on the state [W] of all lines.  Loops take fuel, [None] if there is too little; there is enough of it
    (RalCtcProofs.v). *)
From Coq Require Import ZArith Bool List.
From Verif Require Import Base RalBus.
Import ListNotations.
Open Scope Z_scope.
Notation "'do' x <- m ; k" := (match m with Some x => k | None => None end) (at level 200, x pattern, m at level 100, k at level 200).

(** ctc.rs:17-30 CtcTrigger, on a state [W]; [(true, t)] is [Ok(t)] and [(false, t)] is [Err(t)] *)
Record trig (W : Type) := mkTrig {
  tg_next : bool -> Z -> W -> option (W * (bool * Z));
  tg_purge : Z -> W -> option (W * Z);
  tg_pulse : Z -> W -> option W;
  tg_second : Z -> W -> option W }.
Arguments mkTrig {W}. Arguments tg_next {W}. Arguments tg_purge {W}. Arguments tg_pulse {W}. Arguments tg_second {W}.

(** ctc_trigger.rs:18-23 CtcPulse, ctc_trigger.rs:37-48 CtcActive: the pulses stored are a list, of at most [cap] elements *)
Record line := mkLine { ln_half : Z; ln_period : Z; ln_high : bool; ln_pulses : list Z }.
(* ctc_trigger.rs:62-70 *)
Definition line_new (ext : Z) : option line := if Z.land ext 1 =? 0 then Some (mkLine (ext / 2) 0 false []) else None.
(* ctc_trigger.rs:82-103 *)
Definition active_next (rise : bool) (t : Z) (l : line) : option (line * (bool * Z)) :=
  do n <- add32 (ln_period l) (ln_half l);
  if n <=? t then
    let edge := negb (ln_high l) in
    if Bool.eqb edge rise then Some (mkLine (ln_half l) n edge (ln_pulses l), (true, n))
    else
      do n2 <- add32 n (ln_half l);
      if n2 <=? t then Some (mkLine (ln_half l) n2 (ln_high l) (ln_pulses l), (true, n2))
      else Some (mkLine (ln_half l) n edge (ln_pulses l), (false, n2))
  else Some (l, (false, n)).
(* ctc_trigger.rs:105-115 *)
Definition active_purge (t : Z) (l : line) : option (line * Z) :=
  do n <- add32 (ln_period l) (ln_half l);
  if n <=? t then option_map (fun n2 => (mkLine (ln_half l) n (negb (ln_high l)) (ln_pulses l), n2)) (add32 n (ln_half l)) else Some (l, n).
(* ctc_trigger.rs:117-125 *)
Definition active_pulse (cap : nat) (t : Z) (l : line) : option line :=
  if Nat.leb cap (length (ln_pulses l)) then None else Some (mkLine (ln_half l) (ln_period l) (ln_high l) (ln_pulses l ++ [t])).
(* ctc_trigger.rs:127-129 *)
Definition active_second (delta : Z) (l : line) : option line := Some (mkLine (ln_half l) (Z.max 0 (ln_period l - delta)) (ln_high l) (ln_pulses l)).
Definition active (cap : nat) : trig line := mkTrig active_next active_purge (active_pulse cap) active_second.
Definition with_pulses (l : line) (x : list Z) : line := mkLine (ln_half l) (ln_period l) (ln_high l) x.
Definition TS_MAX : Z := 2 ^ 32 - 1.
(* ctc_trigger.rs:145-165; [shift] (ctc_trigger.rs:134-140) drops the first pulse, as there are never more than [cap] *)
Definition passive_next (rise : bool) (t : Z) (l : line) : option (line * (bool * Z)) :=
  match ln_pulses l with
  | [] => Some (l, (false, TS_MAX))
  | n :: rest =>
      if n <=? t then
        if rise then Some (with_pulses l rest, (true, n))
        else
          do n2 <- add32 n 2;
          Some (if n2 <=? t then (with_pulses l rest, (true, n2)) else (l, (false, n2)))
      else Some (l, (false, n))
  end.
(* ctc_trigger.rs:167-181 *)
Fixpoint purge_pulses (t : Z) (x : list Z) : option (list Z * Z) :=
  match x with
  | [] => Some ([], TS_MAX)
  | n :: rest =>
      if t <? n then Some (x, n)
      else
        do n2 <- add32 n 2;
        if t <? n2 then Some (x, n2) else purge_pulses t rest
  end.
Definition passive_purge (t : Z) (l : line) : option (line * Z) := option_map (fun r => (with_pulses l (fst r), snd r)) (purge_pulses t (ln_pulses l)).
(* ctc_trigger.rs:183 *)
Definition passive_pulse (t : Z) (l : line) : option line := Some l.
(* ctc_trigger.rs:185-190 *)
Definition passive_second (delta : Z) (l : line) : option line := Some (with_pulses l (map (fun n => Z.max 0 (n - delta)) (ln_pulses l))).
Definition passive : trig line := mkTrig passive_next passive_purge passive_pulse passive_second.

(** ctc.rs:33-45, 47-50, 52-67 Channel, Prescaler and ChannelMode without the trigger: [x16] is the prescaler x16, [counter] the counter mode *)
Record cchan := mkCc { cc_x16 : bool; cc_counter : bool; cc_hint : Z; cc_last : option Z; cc_ext : option Z; cc_tci : Z; cc_restart : option Z; cc_cur : Z; cc_await : bool; cc_etrig : bool; cc_ints : bool; cc_int : bool; cc_rise : bool }.
Definition set_x16 (v : bool) (c : cchan) : cchan := mkCc v (cc_counter c) (cc_hint c) (cc_last c) (cc_ext c) (cc_tci c) (cc_restart c) (cc_cur c) (cc_await c) (cc_etrig c) (cc_ints c) (cc_int c) (cc_rise c).
Definition set_counter (v : bool) (c : cchan) : cchan := mkCc (cc_x16 c) v (cc_hint c) (cc_last c) (cc_ext c) (cc_tci c) (cc_restart c) (cc_cur c) (cc_await c) (cc_etrig c) (cc_ints c) (cc_int c) (cc_rise c).
Definition set_hint (v : Z) (c : cchan) : cchan := mkCc (cc_x16 c) (cc_counter c) v (cc_last c) (cc_ext c) (cc_tci c) (cc_restart c) (cc_cur c) (cc_await c) (cc_etrig c) (cc_ints c) (cc_int c) (cc_rise c).
Definition set_last (v : option Z) (c : cchan) : cchan := mkCc (cc_x16 c) (cc_counter c) (cc_hint c) v (cc_ext c) (cc_tci c) (cc_restart c) (cc_cur c) (cc_await c) (cc_etrig c) (cc_ints c) (cc_int c) (cc_rise c).
Definition set_ext (v : option Z) (c : cchan) : cchan := mkCc (cc_x16 c) (cc_counter c) (cc_hint c) (cc_last c) v (cc_tci c) (cc_restart c) (cc_cur c) (cc_await c) (cc_etrig c) (cc_ints c) (cc_int c) (cc_rise c).
Definition set_tci (v : Z) (c : cchan) : cchan := mkCc (cc_x16 c) (cc_counter c) (cc_hint c) (cc_last c) (cc_ext c) v (cc_restart c) (cc_cur c) (cc_await c) (cc_etrig c) (cc_ints c) (cc_int c) (cc_rise c).
Definition set_restart (v : option Z) (c : cchan) : cchan := mkCc (cc_x16 c) (cc_counter c) (cc_hint c) (cc_last c) (cc_ext c) (cc_tci c) v (cc_cur c) (cc_await c) (cc_etrig c) (cc_ints c) (cc_int c) (cc_rise c).
Definition set_cur (v : Z) (c : cchan) : cchan := mkCc (cc_x16 c) (cc_counter c) (cc_hint c) (cc_last c) (cc_ext c) (cc_tci c) (cc_restart c) v (cc_await c) (cc_etrig c) (cc_ints c) (cc_int c) (cc_rise c).
Definition set_await (v : bool) (c : cchan) : cchan := mkCc (cc_x16 c) (cc_counter c) (cc_hint c) (cc_last c) (cc_ext c) (cc_tci c) (cc_restart c) (cc_cur c) v (cc_etrig c) (cc_ints c) (cc_int c) (cc_rise c).
Definition set_etrig (v : bool) (c : cchan) : cchan := mkCc (cc_x16 c) (cc_counter c) (cc_hint c) (cc_last c) (cc_ext c) (cc_tci c) (cc_restart c) (cc_cur c) (cc_await c) v (cc_ints c) (cc_int c) (cc_rise c).
Definition set_ints (v : bool) (c : cchan) : cchan := mkCc (cc_x16 c) (cc_counter c) (cc_hint c) (cc_last c) (cc_ext c) (cc_tci c) (cc_restart c) (cc_cur c) (cc_await c) (cc_etrig c) v (cc_int c) (cc_rise c).
Definition set_int (v : bool) (c : cchan) : cchan := mkCc (cc_x16 c) (cc_counter c) (cc_hint c) (cc_last c) (cc_ext c) (cc_tci c) (cc_restart c) (cc_cur c) (cc_await c) (cc_etrig c) (cc_ints c) v (cc_rise c).
Definition set_rise (v : bool) (c : cchan) : cchan := mkCc (cc_x16 c) (cc_counter c) (cc_hint c) (cc_last c) (cc_ext c) (cc_tci c) (cc_restart c) (cc_cur c) (cc_await c) (cc_etrig c) (cc_ints c) (cc_int c) v.
(* ctc.rs:400-417 *)
Definition cc_new : cchan := mkCc false false 0 None None 256 None 0 false false false false false.
Section Chan.
Context {W : Type} (tg : trig W).
(* ctc.rs:36-45 *)
Definition cc_factor (c : cchan) : Z := if cc_x16 c then 16 else 1.
(* ctc.rs:423-429 *)
Definition cc_set_int (c : cchan) : cchan := set_hint 0 (if cc_ints c then set_int true c else c).
(* ctc.rs:562-572 *)
Definition downcount (r t : Z) (c : cchan) (w : W) : option (cchan * W * bool) :=
  let n := u8 (cc_cur c - 1) in
  if n =? 0 then do w <- tg_pulse tg t w; Some (cc_set_int (set_cur r c), w, true) else Some (set_cur n c, w, false).
(* ctc.rs:574-579 *)
Definition start_timer (t : Z) (c : cchan) : option cchan := do s <- add32 t 1; Some (set_hint s (set_last (Some s) c)).
(* ctc.rs:604-614 *)
Fixpoint count_loop (fuel : nat) (r t : Z) (c : cchan) (w : W) : option (cchan * W) :=
  match fuel with
  | O => None
  | S fuel =>
      do (w, x) <- tg_next tg (cc_rise c) t w;
      match x with
      | (true, u) => do (c, w, z) <- downcount r u c w; if z : bool then Some (c, w) else count_loop fuel r t c w
      | (false, h) => Some (set_hint h c, w)
      end
  end.
(** ctc.rs:637-643: the time of the last pulse and what remains to count, of [d] counts with [k] missing to the next zero *)
Fixpoint timer_loop (fuel : nat) (full d k u : Z) (c : cchan) (w : W) : option (cchan * W * (Z * Z * Z)) :=
  if k <=? d then
    match fuel with
    | O => None
    | S fuel =>
        do u <- add32 u (k / cc_factor c);
        do w <- tg_pulse tg u w;
        timer_loop fuel full (d - k) full u (cc_set_int c) w
    end
  else Some (c, w, (d, k, u)).
(* ctc.rs:670-682 *)
Fixpoint wait_loop (fuel : nat) (g t : Z) (c : cchan) (w : W) : option (cchan * W) :=
  match fuel with
  | O => None
  | S fuel =>
      do (w, x) <- tg_next tg (cc_rise c) t w;
      match x with
      | (true, u) => if g <=? u then do c <- start_timer u c; Some (c, w) else wait_loop fuel g t c w
      | (false, h) => Some (set_hint h c, w)
      end
  end.
(* ctc.rs:600-690 *)
Definition process (t : Z) (c : cchan) (w : W) : option (cchan * W) :=
  let idle := do (w, h) <- tg_purge tg t w; Some (set_hint h c, w) in
  match cc_restart c with
  | None => idle
  | Some r =>
      if cc_counter c then count_loop 257 r t c w
      else
        match cc_last c with
        | Some s =>
            do (w, _) <- tg_purge tg t w;
            if s <? t then
              do d <- mul32 (t - s) (cc_factor c);
              let k := 256 * u8 (cc_cur c - 1) + cc_tci c in
              let full := 256 * (if r =? 0 then 256 else r) in
              do (c, w, (d, k, u)) <- timer_loop (S (S (Z.to_nat (d / 256)))) full d k s c w;
              let k := k - d in
              do h <- (if u =? s then add32 t (k / cc_factor c) else Some 0);
              Some (set_hint h (set_last (Some t)
                (if k mod 256 =? 0 then set_tci 256 (set_cur (u8 (k / 256)) c) else set_tci (k mod 256) (set_cur (u8 (u8 (k / 256) + 1)) c))), w)
            else do h <- add32 s 1; Some (set_hint h c, w)
        | None =>
            match cc_ext c with
            | Some g => wait_loop (6 + Z.to_nat t) g t c w
            | None => idle
            end
        end
  end.
(* ctc.rs:436-447 *)
Definition cc_reset (t : Z) (c : cchan) (w : W) : option (cchan * W) :=
  do (c, w) <- process t c w;
  Some (set_int false (set_ints false (set_await false (set_counter false (set_tci 256 (set_ext None (set_last None (set_restart None (set_hint 0 c)))))))), w).
Definition shrink (delta t : Z) : Z := if delta <=? t then t - delta else 0.
(* ctc.rs:449-464 *)
Definition cc_second (delta : Z) (c : cchan) (w : W) : option (cchan * W) :=
  do c <- (match cc_last c with Some s => if delta <=? s then Some (set_last (Some (s - delta)) c) else None | None => Some c end);
  let c := match cc_ext c with Some g => set_ext (Some (shrink delta g)) c | None => c end in
  do w <- tg_second tg delta w;
  Some (set_hint (shrink delta (cc_hint c)) c, w).
(* ctc.rs:466-469 *)
Definition read_counter (t : Z) (c : cchan) (w : W) : option (cchan * W * Z) := do (c, w) <- process t c w; Some (c, w, cc_cur c).
(* ctc.rs:581-598 *)
Definition edge_changed (t : Z) (c : cchan) (w : W) : option (cchan * W) :=
  match cc_restart c with
  | Some r =>
      if cc_counter c then do (c, w, _) <- downcount r t c w; Some (c, w)
      else match cc_last c, cc_ext c with None, Some g => if g <=? t then do c <- start_timer t c; Some (c, w) else Some (c, w) | _, _ => Some (c, w) end
  | None => Some (c, w)
  end.
Definition is_none {T} (x : option T) : bool := match x with None => true | _ => false end.
(* ctc.rs:472-560 *)
Definition cc_write (v t : Z) (c : cchan) (w : W) : option (cchan * W * bool) :=
  do (c, w) <- process t c w;
  if cc_await c then
    let c := set_await false c in
    let c := if is_none (cc_restart c) then set_cur v c else c in
    let c := set_restart (Some v) c in
    do c <- (if cc_counter c then Some c
             else if is_none (cc_last c) then if cc_etrig c then Some (set_ext (Some t) c) else start_timer t c
             else Some c);
    Some (c, w, true)
  else if Z.testbit v 0 then
    let c := if Z.testbit v 1 then set_tci 256 (set_ext None (set_last None (set_restart None c))) else c in
    let c := if Z.testbit v 2 then set_await true c else c in
    let c := set_x16 (negb (Z.testbit v 5)) c in
    let c := if Z.testbit v 7 then set_ints true c else set_ints false (set_int false c) in
    do c <- (if Z.testbit v 6 then Some (if cc_counter c then c else set_counter true (set_ext None (set_last None c)))
             else if cc_counter c then
               do c <- (if negb (is_none (cc_restart c)) && negb (cc_await c) then if Z.testbit v 3 then Some (set_ext (Some t) c) else start_timer t c else Some c);
               Some (set_counter false c)
             else Some c);
    do c <- (if cc_counter c then Some c
             else if Z.testbit v 3 then Some (set_etrig true c)
             else if cc_etrig c then
               do c <- (if is_none (cc_last c) && negb (is_none (cc_restart c)) && negb (cc_await c) then start_timer t c else Some c);
               Some (set_etrig false (set_ext None c))
             else Some c);
    do (c, w) <- (if Bool.eqb (cc_rise c) (Z.testbit v 4) then Some (c, w) else edge_changed t (set_rise (Z.testbit v 4) c) w);
    Some (c, w, true)
  else Some (c, w, false).
End Chan.

Section Ctc.
Context {W D : Type} (g0 g1 g2 g3 : trig W) (dv : dev D).
(** ctc.rs:73-92 Ctc; the port bits are given *)
Record ctc := mkCtc { ct_hint : Z; ct_vec : Z; ct_0 : cchan; ct_1 : cchan; ct_2 : cchan; ct_3 : cchan; ct_ieo : bool; ct_lines : W; ct_next : D }.
(* ctc.rs:105-127 *)
Definition ctc_new (w : W) (d : D) : ctc := mkCtc 0 0 cc_new cc_new cc_new cc_new false w d.
Variables (mask bits m1 m0 : Z).
(* ctc.rs:216-236 *)
Definition process_channels (t : Z) (p : ctc) : option ctc :=
  if ct_hint p <=? t then
    let due c := (cc_hint c <=? t) || (ct_hint p =? 0) in
    do (c0, w) <- (if due (ct_0 p) then process g0 t (ct_0 p) (ct_lines p) else Some (ct_0 p, ct_lines p));
    do (c1, w) <- (if due (ct_1 p) then process g1 t (ct_1 p) w else Some (ct_1 p, w));
    do (c2, w) <- (if due (ct_2 p) then process g2 t (ct_2 p) w else Some (ct_2 p, w));
    do (c3, w) <- (if due (ct_3 p) then process g3 t (ct_3 p) w else Some (ct_3 p, w));
    Some (mkCtc (Z.min (Z.min (Z.min (cc_hint c0) (cc_hint c1)) (cc_hint c2)) (cc_hint c3)) (ct_vec p) c0 c1 c2 c3 (ct_ieo p) w (ct_next p))
  else Some p.
Definition behind (p : ctc) (f : D -> option D) : option ctc :=
  do d <- f (ct_next p); Some (mkCtc (ct_hint p) (ct_vec p) (ct_0 p) (ct_1 p) (ct_2 p) (ct_3 p) (ct_ieo p) (ct_lines p) d).
Definition behind' {R} (p : ctc) (f : D -> option (D * R)) : option (ctc * R) :=
  do (d, r) <- f (ct_next p); Some (mkCtc (ct_hint p) (ct_vec p) (ct_0 p) (ct_1 p) (ct_2 p) (ct_3 p) (ct_ieo p) (ct_lines p) d, r).
Definition all_four (p : ctc) (f : trig W -> cchan -> W -> option (cchan * W)) (h : Z) (ieo : bool) : option ctc :=
  do (c0, w) <- f g0 (ct_0 p) (ct_lines p);
  do (c1, w) <- f g1 (ct_1 p) w;
  do (c2, w) <- f g2 (ct_2 p) w;
  do (c3, w) <- f g3 (ct_3 p) w;
  Some (mkCtc h (ct_vec p) c0 c1 c2 c3 ieo w (ct_next p)).
(** The channel selected by a port. *)
Definition one_of {R} (port : Z) (p : ctc) (f : trig W -> cchan -> W -> option (cchan * W * R)) : option (ctc * R) :=
  match Z.land port m1 =? 0, Z.land port m0 =? 0 with
  | true, true => do (c, w, r) <- f g0 (ct_0 p) (ct_lines p); Some (mkCtc (ct_hint p) (ct_vec p) c (ct_1 p) (ct_2 p) (ct_3 p) (ct_ieo p) w (ct_next p), r)
  | true, false => do (c, w, r) <- f g1 (ct_1 p) (ct_lines p); Some (mkCtc (ct_hint p) (ct_vec p) (ct_0 p) c (ct_2 p) (ct_3 p) (ct_ieo p) w (ct_next p), r)
  | false, true => do (c, w, r) <- f g2 (ct_2 p) (ct_lines p); Some (mkCtc (ct_hint p) (ct_vec p) (ct_0 p) (ct_1 p) c (ct_3 p) (ct_ieo p) w (ct_next p), r)
  | false, false => do (c, w, r) <- f g3 (ct_3 p) (ct_lines p); Some (mkCtc (ct_hint p) (ct_vec p) (ct_0 p) (ct_1 p) (ct_2 p) c (ct_ieo p) w (ct_next p), r)
  end.
(* ctc.rs:250-253 *)
Definition ctc_frame_end (t : Z) (p : ctc) : option ctc := do p <- process_channels t p; behind p (dv_frame_end dv t).
(* ctc.rs:255-258 *)
Definition ctc_m1 (t : Z) (p : ctc) : option ctc := do p <- process_channels t p; behind p (dv_m1 dv t).
(* ctc.rs:260-268 *)
Definition ctc_reset (t : Z) (p : ctc) : option ctc := do p <- all_four p (fun g => cc_reset g t) 0 false; behind p (dv_reset dv t).
(* ctc.rs:274-282 *)
Definition ctc_second (delta : Z) (p : ctc) : option ctc := do p <- all_four p (fun g => cc_second g delta) (shrink delta (ct_hint p)) (ct_ieo p); behind p (dv_next_second dv delta).
(* ctc.rs:297-311 *)
Definition ctc_read_io (port t : Z) (p : ctc) : option (ctc * (Z * option Z)) :=
  if Z.land port mask =? bits then do (p, v) <- one_of port p (fun g => read_counter g t); Some (p, (v, None)) else behind' p (dv_read_io dv port t).
(* ctc.rs:313-331 *)
Definition ctc_write_io (port v t : Z) (p : ctc) : option (ctc * (option unit * option Z)) :=
  if Z.land port mask =? bits then
    do (p, word) <- one_of port p (fun g => cc_write g v t);
    Some (if word : bool then p else mkCtc (ct_hint p) (Z.land v 0xF8) (ct_0 p) (ct_1 p) (ct_2 p) (ct_3 p) (ct_ieo p) (ct_lines p) (ct_next p), (None, None))
  else behind' p (dv_write_io dv port v t).
(* ctc.rs:333-355 *)
Definition ctc_is_irq (t : Z) (p : ctc) : option (ctc * bool) :=
  if ct_ieo p then Some (p, false)
  else
    do p <- process_channels t p;
    if cc_int (ct_0 p) || cc_int (ct_1 p) || cc_int (ct_2 p) || cc_int (ct_3 p) then Some (p, true) else behind' p (dv_is_irq dv t).
(* ctc.rs:357-384 *)
Definition ctc_irq_data (pc t : Z) (p : ctc) : option (ctc * (Z * option Z)) :=
  if cc_int (ct_0 p) then Some (mkCtc (ct_hint p) (ct_vec p) (set_int false (ct_0 p)) (ct_1 p) (ct_2 p) (ct_3 p) true (ct_lines p) (ct_next p), (Z.lor (ct_vec p) 0, None))
  else if cc_int (ct_1 p) then Some (mkCtc (ct_hint p) (ct_vec p) (ct_0 p) (set_int false (ct_1 p)) (ct_2 p) (ct_3 p) true (ct_lines p) (ct_next p), (Z.lor (ct_vec p) 2, None))
  else if cc_int (ct_2 p) then Some (mkCtc (ct_hint p) (ct_vec p) (ct_0 p) (ct_1 p) (set_int false (ct_2 p)) (ct_3 p) true (ct_lines p) (ct_next p), (Z.lor (ct_vec p) 4, None))
  else if cc_int (ct_3 p) then Some (mkCtc (ct_hint p) (ct_vec p) (ct_0 p) (ct_1 p) (ct_2 p) (set_int false (ct_3 p)) true (ct_lines p) (ct_next p), (Z.lor (ct_vec p) 6, None))
  else behind' (mkCtc (ct_hint p) (ct_vec p) (ct_0 p) (ct_1 p) (ct_2 p) (ct_3 p) false (ct_lines p) (ct_next p)) (dv_irq_data dv pc t).
(* ctc.rs:386-394 *)
Definition ctc_reti (pc t : Z) (p : ctc) : option (ctc * option unit) :=
  if ct_ieo p then Some (mkCtc (ct_hint p) (ct_vec p) (ct_0 p) (ct_1 p) (ct_2 p) (ct_3 p) false (ct_lines p) (ct_next p), None) else behind' p (dv_reti dv pc t).
Definition ctc_dev : dev ctc := mkDev ctc_reset ctc_frame_end ctc_m1 ctc_second ctc_read_io ctc_write_io ctc_is_irq ctc_irq_data ctc_reti.
End Ctc.
Arguments ctc : clear implicits.
Arguments mkCtc {W D}. Arguments ct_hint {W D}. Arguments ct_vec {W D}. Arguments ct_0 {W D}. Arguments ct_1 {W D}. Arguments ct_2 {W D}. Arguments ct_3 {W D}.
Arguments ct_ieo {W D}. Arguments ct_lines {W D}. Arguments ct_next {W D}.

(** The four triggers of the example: two lines. *)
Definition on_first {A} (g : trig A) : trig (A * A) :=
  mkTrig (fun r t w => option_map (fun x => ((fst x, snd w), snd x)) (tg_next g r t (fst w))) (fun t w => option_map (fun x => ((fst x, snd w), snd x)) (tg_purge g t (fst w)))
    (fun t w => option_map (fun x => (x, snd w)) (tg_pulse g t (fst w))) (fun t w => option_map (fun x => (x, snd w)) (tg_second g t (fst w))).
Definition on_second {A} (g : trig A) : trig (A * A) :=
  mkTrig (fun r t w => option_map (fun x => ((fst w, fst x), snd x)) (tg_next g r t (snd w))) (fun t w => option_map (fun x => ((fst w, fst x), snd x)) (tg_purge g t (snd w)))
    (fun t w => option_map (fun x => (fst w, x)) (tg_pulse g t (snd w))) (fun t w => option_map (fun x => (fst w, x)) (tg_second g t (snd w))).
(* lib.rs:68, 94-101 *)
Definition MAX_PULSES : nat := 4.
Definition CTC_MASK : Z := 0xFC.
Definition CTC_BITS : Z := 4.
Definition CTC_CS1 : Z := 2.
Definition CTC_CS0 : Z := 1.
(* lib.rs:231-240 *)
Definition ral_ctc {D} (dv : dev D) : dev (ctc (line * line) D) :=
  ctc_dev (on_first (active MAX_PULSES)) (on_first passive) (on_second (active MAX_PULSES)) (on_second passive) dv CTC_MASK CTC_BITS CTC_CS1 CTC_CS0.
Definition ral_ctc_new {D} (ext : Z) (d : D) : option (ctc (line * line) D) := do l <- line_new ext; Some (ctc_new (l, l) d).
