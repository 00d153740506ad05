(** How long [execute_with_limit] goes on between looks at the limit, told from the log of host calls. *)
From Coq Require Import ZArith Bool List.
From Verif Require Import Base Parse Cpu Prog Trace.
Import ListNotations.
Open Scope Z_scope.

(** T-states of a host call, and those a device asked for. *)
Definition spent {TS WB RB} (e : ev TS WB RB) : Z :=
  match e with KM1 _ _ => 4 | KMreq _ _ => 3 | KIo _ _ => 4 | KIrq _ _ => 6 | KNoMreq _ n => n | _ => 0 end.
Definition held {TS WB RB} (e : ev TS WB RB) : Z := match e with KWait _ n => n | _ => 0 end.
Definition total (l : list Z) : Z := fold_right Z.add 0 l.
Definition busy {TS WB RB} (l : list (ev TS WB RB)) : Z := total (map spent l).
Definition held_up {TS WB RB} (l : list (ev TS WB RB)) : Z := total (map held l).
(** What is done between two looks. *)
Definition no_look {TS WB RB} (e : ev TS WB RB) : Prop := match e with KPast _ => False | _ => True end.
Definition lap {TS WB RB} (l : list (ev TS WB RB)) : Prop := Forall no_look l /\ 4 <= busy l <= 23.
(** Look, a lap, look, a lap ... until the limit is seen, or a lap ends with a break. *)
Inductive paced {TS WB RB} : bool -> list (ev TS WB RB) -> Prop :=
| pc_limit : paced true [KPast true]
| pc_break l : lap l -> paced false (KPast false :: l)
| pc_lap r l l' : lap l -> paced r l' -> paced r (KPast false :: l ++ l').

(** A clock whose reading [now] advances as told as long as it stays within [bot] and [top], with the limit at [lim]. *)
Record metered {TS WB RB BS CK} (H : host TS WB RB BS CK) (now : CK -> Z) (lim bot top : Z) : Prop := mkMetered {
  mt_past k : h_is_past_limit H k = (lim <=? now k);
  mt_m1 k a : bot <= now k -> now k + 4 < top -> now (fst (h_add_m1 H k a)) = now k + 4;
  mt_irq k a : bot <= now k -> now k + 6 < top -> now (fst (h_add_irq H k a)) = now k + 6;
  mt_mreq k a : bot <= now k -> now k + 3 < top -> now (fst (h_add_mreq H k a)) = now k + 3;
  mt_io k a : bot <= now k -> now k + 4 < top -> now (fst (h_add_io H k a)) = now k + 4;
  mt_idle k a n : 0 <= n -> bot <= now k -> now k + n < top -> now (h_add_no_mreq H k a n) = now k + n;
  mt_wait k a n : 0 <= n -> bot <= now k -> now k + n < top -> now (h_add_wait H k a n) = now k + n }.
(** Devices that ask for no wait states. *)
Record no_waits {TS WB RB BS CK} (H : host TS WB RB BS CK) : Prop := mkNoWaits {
  nw_in b p t : snd (snd (h_read_io H b p t)) = None;
  nw_out b p v t : snd (snd (h_write_io H b p v t)) = None;
  nw_ack b p t : snd (snd (h_irq_data H b p t)) = None }.
