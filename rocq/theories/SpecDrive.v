(** What the devices of the example computer hear of the processor and of the frame runner. *)
From Coq Require Import ZArith Bool List.
From Verif Require Import Base Cpu Prog Trace Exec RalMemory RalBus RalRunner SpecRal SpecPio.
Import ListNotations.
Open Scope Z_scope.

(** Of the calls of the processor the devices hear the opcode fetches, the ports but the one of the memory, and everything about
    interrupts, with the time given by the clock. *)
Definition told (e : ev Z unit unit) : option bop :=
  match e with
  | EOp _ _ t _ => Some (BM1 t)
  | EIn p t _ _ => if memory_port p then None else Some (BIn (u16 p) t)
  | EOut p v t _ _ => if memory_port p then None else Some (BOut (u16 p) (u8 v) t)
  | EIsIrq t _ => Some (BIrq t)
  | EIrqData a t _ _ => Some (BAck (u16 a) t)
  | EReti a t _ => Some (BReti (u16 a) t)
  | _ => None
  end.
(** And the processor gets their answers. *)
Definition answered (e : ev Z unit unit) (x : ans) : Prop :=
  match e with EIsIrq _ b => x = ALine b | EIn _ _ v _ | EIrqData _ _ v _ => exists y, x = AByte y /\ v = y mod 256 | _ => x = ANone end.
Inductive tells : list (ev Z unit unit) -> list (bop * ans) -> Prop :=
| tl_nil : tells [] []
| tl_skip e l la : told e = None -> tells l la -> tells (e :: l) la
| tl_cons e l o x la : told e = Some o -> answered e x -> tells l la -> tells (e :: l) ((o, x) :: la).

(** Things that can happen to a device: bytes, ports and addresses are such, times fit into an [u32], a second is [hz] T-states. *)
Definition proper (hz : Z) (o : bop) : Prop :=
  0 <= op_time o < 2 ^ 32 /\
  match o with
  | BSecond n => n = hz
  | BIn p _ => 0 <= p < 65536 /\ p mod 256 <> 124
  | BOut p v _ => 0 <= p < 65536 /\ p mod 256 <> 124 /\ 0 <= v < 256
  | BAck a _ | BReti a _ => 0 <= a < 65536
  | _ => True
  end.

(** Frames with the buttons of the machine: one may be pressed before each. *)
Inductive button := NoButton | NmiButton | ResetButton.
Section S.
Context {Q D : Type}.
Variables (FL : Flavour Q) (da : bool) (dv : dev D) (fuel : nat).
Definition press (b : button) (w : world Q D) : outcome (world Q D) :=
  match b with
  | NoButton => Done w
  | NmiButton => match runner_nmi FL 255 124 dv w with Done (w, _) => Done w | More => More | Panicked => Panicked end
  | ResetButton => runner_reset FL dv w
  end.
Fixpoint session (bs : list button) (w : world Q D) : outcome (world Q D) :=
  match bs with
  | [] => Done w
  | b :: bs => match press b w with
      | Done w => match runner_step FL da 255 124 dv fuel w with Done (w, _) => session bs w | More => More | Panicked => Panicked end
      | x => x
      end
  end.
End S.
Definition frame_ends (ops : list bop) : nat := length (filter (fun o => match o with BFrame _ => true | _ => false end) ops).
Definition resets (ops : list bop) : nat := length (filter is_reset ops).
Definition pressed (b : button) : nat := match b with ResetButton => 1%nat | _ => 0%nat end.
Definition resets_in (bs : list button) : nat := fold_right (fun b n => (pressed b + n)%nat) 0%nat bs.
