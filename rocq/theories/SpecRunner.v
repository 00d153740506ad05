(** What the frame runner of the example computer may expect of the devices on its bus, and what is expected of it. *)
From Coq Require Import ZArith Bool List.
From Verif Require Import Base RalBus.
Import ListNotations.
Open Scope Z_scope.

(** Devices that ask for no wait states. *)
Definition waitless {D} (dv : dev D) : Prop :=
  (forall p t d d' v w, dv_read_io dv p t d = Some (d', (v, w)) -> w = None) /\
  (forall p v t d d' b w, dv_write_io dv p v t d = Some (d', (b, w)) -> w = None) /\
  (forall p t d d' v w, dv_irq_data dv p t d = Some (d', (v, w)) -> w = None).
(** Devices that work as long as they are told about times in order and less than [top], with [hz] taken back now and then: [ok t d] says
    that [d] can be in a machine at the time [t].  They never panic, ask for no break and do not answer an acknowledge with EI (FBh); the
    interrupt line does not go off by looking at it. *)
Record polite {D} (dv : dev D) (ok : Z -> D -> Prop) (hz top : Z) : Prop := mkPolite {
  pl_reset t t' d : ok t d -> 0 <= t <= t' -> t' < top -> exists d', dv_reset dv t' d = Some d' /\ ok t' d';
  pl_frame_end t t' d : ok t d -> 0 <= t <= t' -> t' < top -> exists d', dv_frame_end dv t' d = Some d' /\ ok t' d';
  pl_m1 t t' d : ok t d -> 0 <= t <= t' -> t' < top -> exists d', dv_m1 dv t' d = Some d' /\ ok t' d';
  pl_second t d : ok t d -> 2 * hz < t -> t < top -> exists d', dv_next_second dv hz d = Some d' /\ ok (t - hz) d';
  pl_in p t t' d : ok t d -> 0 <= t <= t' -> t' < top -> exists d' v w, dv_read_io dv p t' d = Some (d', (v, w)) /\ ok t' d';
  pl_out p v t t' d : ok t d -> 0 <= t <= t' -> t' < top -> exists d' w, dv_write_io dv p v t' d = Some (d', (None, w)) /\ ok t' d';
  pl_irq t t' d : ok t d -> 0 <= t <= t' -> t' < top -> exists d' q, dv_is_irq dv t' d = Some (d', q) /\ ok t' d' /\
    (q = true -> exists d2, dv_is_irq dv t' d' = Some (d2, true));
  pl_ack p t t' d : ok t d -> 0 <= t <= t' -> t' < top -> exists d' v w, dv_irq_data dv p t' d = Some (d', (v, w)) /\ ok t' d' /\ v mod 256 <> 0xFB;
  pl_reti p t t' d : ok t d -> 0 <= t <= t' -> t' < top -> exists d', dv_reti dv p t' d = Some (d', None) /\ ok t' d' }.
Definition sum (l : list Z) : Z := fold_right Z.add 0 l.
