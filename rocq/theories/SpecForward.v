(** When a wrapper is as good as what it wraps. *)
From Coq Require Import ZArith Bool List.
From Verif Require Import Base Prog Trace Forward.
Import ListNotations.
Open Scope Z_scope.

(** What is put back is found again, the last one counts, and putting back the same changes nothing. *)
Record lawful {W B} (l : place W B) : Prop := {
  get_put : forall b w, taken l (put_back l b w) = b;
  put_put : forall b b' w, put_back l b (put_back l b' w) = put_back l b w;
  put_get : forall w, put_back l (taken l w) w = w }.
(** The host does not override a method: it answers as documented for the default. *)
Definition not_overridden {TS WB RB B C} (h : host TS WB RB B C) (m : bmeth) : Prop :=
  match m with
  | Read_io => forall b p t, h_read_io h b p t = (b, (255, None))
  | Write_io => forall b p d t, h_write_io h b p d t = (b, (None, None))
  | Is_irq => forall b t, h_is_irq h b t = (b, false)
  | Irq_data => forall b a t, h_irq_data h b a t = (b, (0xFF, None))
  | Reti_ => forall b a t, h_reti h b a t = (b, None)
  | Write_mem => forall b a v t, h_write_mem h b a v t = b
  | Read_debug => forall b a, h_read_debug h b a = (b, 255)
  | Read_mem => forall b a t, h_read_mem h b a t = h_read_debug h b a
  | Read_opcode => forall b a i t, h_read_opcode h b a i t = h_read_debug h b a
  | Read_mem16 => forall b a t, h_read_mem16 h b a t =
      let (b1, lo) := h_read_debug h b a in let (b2, hi) := h_read_debug h b1 (u16 (a + 1)) in (b2, u8 lo + 256 * u8 hi)
  end.
(** The outcome of a run with the wrapped hosts inside the wrappers, the rest of which is untouched. *)
Definition inside {W B V C X L} (l : place W B) (k : place V C) (w : W) (v : V) (x : option (X * B * C * L)) : option (X * W * V * L) :=
  match x with
  | Some (a, b, c, log) => Some (a, put_back l b w, put_back k c v, log)
  | None => None
  end.
(** The data of the last interrupt of a log. *)
Definition last_irq_data {TS WB RB} (l : list (ev TS WB RB)) (before : option Z) : option Z :=
  fold_left (fun s e => match e with EIrqData _ _ v _ => Some v | _ => s end) l before.
