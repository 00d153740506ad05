(** What a register pair is to its user: one number below 65536, the halves being the quotient and the remainder by 256. *)
From Coq Require Import ZArith Bool List.
From Verif Require Import Base Parse Cpu RegPair.
Import ListNotations.
Open Scope Z_scope.

Definition okp (p : rpair) : Prop := byte (byte0 p) /\ byte (byte1 p).
(** The number held: the high byte is the second one. *)
Definition value (p : rpair) : Z := 256 * byte1 p + byte0 p.

(** Well-typed requests: u8 and u16 arguments, operations yielding u8s. *)
Definition op_ok (o : rpop) : Prop :=
  match o with
  | OSet16 v | OAdd16 v => word v
  | OSet8hi v | OSet8lo v => byte v
  | OSet h l => byte h /\ byte l
  | OInc16 | ODec16 | ODecZero => True
  | OOp16 op => forall w, word w -> byte (fst (op w)) /\ byte (snd (op w))
  | OOp8hi op | OOp8lo op => forall b, byte b -> byte (op b)
  end.
Definition spec_step (o : rpop) (w : Z) : Z * option bool :=
  match o with
  | OSet16 v => (v, None)
  | OSet8hi v => (256 * v + w mod 256, None)
  | OSet8lo v => (w - w mod 256 + v, None)
  | OSet h l => (256 * h + l, None)
  | OInc16 => (if w =? 65535 then 0 else w + 1, None)
  | OAdd16 v => (if w + v <? 65536 then w + v else w + v - 65536, None)
  | ODec16 => (if w =? 0 then 65535 else w - 1, None)
  | ODecZero => (if w =? 0 then 65535 else w - 1, Some (w =? 1))
  | OOp16 op => (256 * fst (op w) + snd (op w), None)
  | OOp8hi op => (256 * op (w / 256) + w mod 256, None)
  | OOp8lo op => (w - w mod 256 + op (w mod 256), None)
  end.
Fixpoint spec_steps (l : list rpop) (w : Z) : Z * list (option bool) :=
  match l with
  | [] => (w, [])
  | o :: l => let (w, x) := spec_step o w in let (w, xs) := spec_steps l w in (w, x :: xs)
  end.

(** The CPU of the model that a struct of byte pairs stands for. *)
Definition okz {Q} (z : zbytes Q) : Prop := forall n, okp (zpair z n).
Definition cpu_of {Q} (z : zbytes Q) : cpu Q :=
  let v n := value (zpair z n) in let c := zrest z in
  mkCpu (v PAF) (v PAF') (v PBC) (v PDE) (v PHL) (v PBC') (v PDE') (v PHL') (v PIX) (v PIY) (v PPC) (v PSP) (v PMP)
    (last_ei c) (v PIR) (im c) (iff1 c) (iff2 c) (halt c) (prefix c) (r c) (flavour c).
