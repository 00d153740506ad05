(** The parallel port of the example computer RAL 1243 (examples/ral1243/src/pio.rs) and what is connected to it
    (examples/ral1243/src/pio_device.rs).

    As in RalBus.v [None] is a panic; [port] and [data] are given in range. *)
From Coq Require Import ZArith Bool List.
From Verif Require Import Base RalBus.
Import ListNotations.
Open Scope Z_scope.

(* pio.rs:19-50 PioDevice *)
Record pdev (X : Type) := mkPdev {
  pd_floating : Z -> X -> X;
  pd_ready : Z -> X -> X;
  pd_sample : Z -> X -> X * option Z;
  pd_bus_data : Z -> Z -> X -> X;
  pd_with_data : Z -> Z -> X -> X;
  pd_strobe : Z -> X -> X * bool }.
Arguments mkPdev {X}. Arguments pd_floating {X}. Arguments pd_ready {X}. Arguments pd_sample {X}. Arguments pd_bus_data {X}.
Arguments pd_with_data {X}. Arguments pd_strobe {X}.

(** pio_device.rs:27-30, 64-88 PioInput over a stream [slurp]; the methods it does not implement have the defaults at pio.rs:19-50 *)
Definition pio_input {S} (slurp : S -> S * option Z) : pdev (S * bool) :=
  mkPdev (fun _ x => (fst x, true)) (fun _ x => (fst x, true))
    (fun _ x => if snd x then match slurp (fst x) with (s, Some v) => ((s, false), Some (u8 v)) | (s, None) => ((s, true), None) end else (x, None))
    (fun _ _ x => (fst x, false)) (fun _ _ x => x) (fun _ x => (x, false)).
(** pio_device.rs:33-36, 90-115 PioOutput over a sink [flush] *)
Definition pio_output {S} (flush : Z -> S -> S * bool) : pdev (S * option Z) :=
  mkPdev (fun _ x => (fst x, None)) (fun _ x => x) (fun _ x => (x, None)) (fun _ _ x => x)
    (fun data _ x => let (s, ok) := flush data (fst x) in (s, if ok then snd x else Some data))
    (fun _ x => match snd x with
       | Some data => let (s, ok) := flush data (fst x) in if ok then ((s, None), true) else ((s, Some data), false)
       | None => (x, true)
       end).

(* pio.rs:60-70 Channel *)
Record chan (X : Type) := mkChan { ch_output : bool; ch_want : bool; ch_ints : bool; ch_int : bool; ch_ready : bool;
  ch_in : Z; ch_out : Z; ch_vec : Z; ch_dev : X }.
Arguments mkChan {X}. Arguments ch_output {X}. Arguments ch_want {X}. Arguments ch_ints {X}. Arguments ch_int {X}. Arguments ch_ready {X}.
Arguments ch_in {X}. Arguments ch_out {X}. Arguments ch_vec {X}. Arguments ch_dev {X}.

Section Channel.
Context {X : Type} (pd : pdev X).
(* pio.rs:288-300 *)
Definition chan_new (x : X) : chan X := mkChan false false false false true 0 0 0 x.
(* pio.rs:302-312; the vector is kept *)
Definition chan_reset (t : Z) (c : chan X) : chan X := mkChan false false false false true 0 0 (ch_vec c) (pd_floating pd t (ch_dev c)).
(* pio.rs:314-318 *)
Definition chan_set_int (c : chan X) : chan X :=
  if ch_ints c then mkChan (ch_output c) (ch_want c) (ch_ints c) true (ch_ready c) (ch_in c) (ch_out c) (ch_vec c) (ch_dev c) else c.
(* pio.rs:320-326 *)
Definition chan_m1 (c : chan X) : chan X :=
  if ch_want c then mkChan (ch_output c) false true (ch_int c) (ch_ready c) (ch_in c) (ch_out c) (ch_vec c) (ch_dev c) else c.
(* pio.rs:328-347 *)
Definition chan_check (t : Z) (c : chan X) : chan X * bool :=
  let c :=
    if ch_ready c then
      if ch_output c then
        let (x, ok) := pd_strobe pd t (ch_dev c) in
        if ok then chan_set_int (mkChan true (ch_want c) (ch_ints c) (ch_int c) false (ch_in c) (ch_out c) (ch_vec c) x)
        else mkChan true (ch_want c) (ch_ints c) (ch_int c) true (ch_in c) (ch_out c) (ch_vec c) x
      else
        match pd_sample pd t (ch_dev c) with
        | (x, Some v) => chan_set_int (mkChan false (ch_want c) (ch_ints c) (ch_int c) false v (ch_out c) (ch_vec c) x)
        | (x, None) => mkChan false (ch_want c) (ch_ints c) (ch_int c) true (ch_in c) (ch_out c) (ch_vec c) x
        end
    else c in
  (c, ch_int c).
(* pio.rs:349-367 *)
Definition chan_read (t : Z) (c : chan X) : option (chan X * Z) :=
  if ch_output c then Some (c, ch_out c)
  else option_map (fun t => (mkChan false (ch_want c) (ch_ints c) (ch_int c) true (ch_in c) (ch_out c) (ch_vec c) (pd_ready pd t (ch_dev c)), ch_in c))
    (add32 t (if ch_ready c then 3 else 1)).
(* pio.rs:369-390 *)
Definition chan_write_data (v t : Z) (c : chan X) : option (chan X) :=
  if ch_output c then
    let (c, n) :=
      if ch_ready c then
        let (x, ok) := pd_strobe pd t (ch_dev c) in
        let c := mkChan true (ch_want c) (ch_ints c) (ch_int c) true (ch_in c) v (ch_vec c) x in
        if ok then (chan_set_int c, 1) else (c, 3)
      else (mkChan true (ch_want c) (ch_ints c) (ch_int c) true (ch_in c) v (ch_vec c) (ch_dev c), 1) in
    option_map (fun t => mkChan true (ch_want c) (ch_ints c) (ch_int c) true (ch_in c) v (ch_vec c) (pd_with_data pd v t (ch_dev c))) (add32 t n)
  else Some (mkChan false (ch_want c) (ch_ints c) (ch_int c) (ch_ready c) (ch_in c) v (ch_vec c) (ch_dev c)).
(* pio.rs:392-436 *)
Definition chan_write_control (v t : Z) (c : chan X) : option (chan X) :=
  if Z.land v 1 =? 0 then Some (mkChan (ch_output c) (ch_want c) (ch_ints c) (ch_int c) (ch_ready c) (ch_in c) (ch_out c) v (ch_dev c))
  else
    match Z.land v 15 with
    | 15 =>
        match Z.shiftr v 6 with
        | 0 => Some (mkChan true (ch_want c) (ch_ints c) (ch_int c) false (ch_in c) (ch_out c) (ch_vec c) (pd_bus_data pd (ch_out c) t (ch_dev c)))
        | 1 => Some (mkChan false (ch_want c) (ch_ints c) (ch_int c) true (ch_in c) (ch_out c) (ch_vec c) (pd_floating pd t (ch_dev c)))
        | _ => None
        end
    | 7 => None
    | 3 =>
        if Z.testbit v 7 then
          Some (if ch_ints c then c else mkChan (ch_output c) true (ch_ints c) (ch_int c) (ch_ready c) (ch_in c) (ch_out c) (ch_vec c) (ch_dev c))
        else Some (mkChan (ch_output c) false false false (ch_ready c) (ch_in c) (ch_out c) (ch_vec c) (ch_dev c))
    | _ => Some c
    end.
End Channel.

Section Pio.
Context {A B D : Type} (pa : pdev A) (pb : pdev B) (dv : dev D).
(** pio.rs:75-84 Pio; the port bits are given *)
Record pio := mkPio { pio_a : chan A; pio_b : chan B; pio_ieo : bool; pio_next : D }.
Definition map_a {R} (p : pio) (f : chan A -> option (chan A * R)) : option (pio * R) :=
  option_map (fun x => (mkPio (fst x) (pio_b p) (pio_ieo p) (pio_next p), snd x)) (f (pio_a p)).
Definition map_b {R} (p : pio) (f : chan B -> option (chan B * R)) : option (pio * R) :=
  option_map (fun x => (mkPio (pio_a p) (fst x) (pio_ieo p) (pio_next p), snd x)) (f (pio_b p)).
Definition map_next {R} (p : pio) (f : D -> option (D * R)) : option (pio * R) :=
  option_map (fun x => (mkPio (pio_a p) (pio_b p) (pio_ieo p) (fst x), snd x)) (f (pio_next p)).
Definition then_next (p : pio) (f : D -> option D) : option pio :=
  option_map (fun d => mkPio (pio_a p) (pio_b p) (pio_ieo p) d) (f (pio_next p)).
Definition unit_ {T} (x : option T) : option (T * unit) := option_map (fun x => (x, tt)) x.
(* pio.rs:97-108 *)
Definition pio_new (a : A) (b : B) (d : D) : pio := mkPio (chan_new a) (chan_new b) false d.
Variables (mask bits cmask kmask : Z).
(* pio.rs:176-180 *)
Definition pio_frame_end (t : Z) (p : pio) : option pio :=
  then_next (mkPio (fst (chan_check pa t (pio_a p))) (fst (chan_check pb t (pio_b p))) (pio_ieo p) (pio_next p)) (dv_frame_end dv t).
(* pio.rs:182-186 *)
Definition pio_m1 (t : Z) (p : pio) : option pio :=
  then_next (mkPio (chan_m1 (pio_a p)) (chan_m1 (pio_b p)) (pio_ieo p) (pio_next p)) (dv_m1 dv t).
(* pio.rs:188-193 *)
Definition pio_reset (t : Z) (p : pio) : option pio :=
  then_next (mkPio (chan_reset pa t (pio_a p)) (chan_reset pb t (pio_b p)) false (pio_next p)) (dv_reset dv t).
(* pio.rs:199-201 *)
Definition pio_next_second (delta : Z) (p : pio) : option pio := then_next p (dv_next_second dv delta).
(* pio.rs:214-226 *)
Definition pio_read_io (port t : Z) (p : pio) : option (pio * (Z * option Z)) :=
  if Z.land port mask =? bits then
    option_map (fun x => (fst x, (snd x, None))) (if Z.land port cmask =? 0 then map_a p (chan_read pa t) else map_b p (chan_read pb t))
  else map_next p (dv_read_io dv port t).
(* pio.rs:228-242 *)
Definition pio_write_io (port v t : Z) (p : pio) : option (pio * (option unit * option Z)) :=
  if Z.land port mask =? bits then
    option_map (fun x => (fst x, (None, None)))
      (if Z.land port cmask =? 0 then map_a p (fun c => unit_ (if Z.land port kmask =? 0 then chan_write_data pa v t c else chan_write_control pa v t c))
       else map_b p (fun c => unit_ (if Z.land port kmask =? 0 then chan_write_data pb v t c else chan_write_control pb v t c)))
  else map_next p (dv_write_io dv port v t).
(* pio.rs:244-256 *)
Definition pio_is_irq (t : Z) (p : pio) : option (pio * bool) :=
  if pio_ieo p then Some (p, false)
  else
    let (a, ia) := chan_check pa t (pio_a p) in
    if ia then Some (mkPio a (pio_b p) (pio_ieo p) (pio_next p), true)
    else
      let (b, ib) := chan_check pb t (pio_b p) in
      if ib then Some (mkPio a b (pio_ieo p) (pio_next p), true)
      else map_next (mkPio a b (pio_ieo p) (pio_next p)) (dv_is_irq dv t).
Definition int_off {X} (c : chan X) : chan X := mkChan (ch_output c) (ch_want c) (ch_ints c) false (ch_ready c) (ch_in c) (ch_out c) (ch_vec c) (ch_dev c).
(* pio.rs:258-272 *)
Definition pio_irq_data (pc t : Z) (p : pio) : option (pio * (Z * option Z)) :=
  if ch_int (pio_a p) then Some (mkPio (int_off (pio_a p)) (pio_b p) true (pio_next p), (ch_vec (pio_a p), None))
  else if ch_int (pio_b p) then Some (mkPio (pio_a p) (int_off (pio_b p)) true (pio_next p), (ch_vec (pio_b p), None))
  else map_next p (dv_irq_data dv pc t).
(* pio.rs:274-282 *)
Definition pio_reti (pc t : Z) (p : pio) : option (pio * option unit) :=
  if pio_ieo p then Some (mkPio (pio_a p) (pio_b p) false (pio_next p), None) else map_next p (dv_reti dv pc t).
Definition pio_dev : dev pio :=
  mkDev pio_reset pio_frame_end pio_m1 pio_next_second pio_read_io pio_write_io pio_is_irq pio_irq_data pio_reti.
End Pio.
Arguments pio : clear implicits.
(* lib.rs:86-93 *)
Definition PIO_MASK : Z := 0xFC.
Definition PIO_BITS : Z := 8.
Definition PIO_CHANNEL : Z := 2.
Definition PIO_CONTROL : Z := 1.
(** lib.rs:71 PioT: the port as it is built at lib.rs:222-229, with any devices behind it *)
Definition ral_pio {S R D} (slurp : S -> S * option Z) (flush : Z -> R -> R * bool) (dv : dev D) : dev (pio (S * bool) (R * option Z) D) :=
  pio_dev (pio_input slurp) (pio_output flush) dv PIO_MASK PIO_BITS PIO_CHANNEL PIO_CONTROL.
(* lib.rs:222-224, pio_device.rs:43, 56 *)
Definition ral_pio_new {S R D} (s : S) (r : R) (d : D) : pio (S * bool) (R * option Z) D := pio_new (s, false) (r, None) d.
