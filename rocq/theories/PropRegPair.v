(** Property C44: the two bytes of a [RegisterPair] are one 16-bit register. *)
From Coq Require Import ZArith Bool List Lia.
From Verif Require Import Base Parse Cpu Flavours RegPair SpecRegPair RegPairProofs.
Import ListNotations.
Open Scope Z_scope.

Theorem C44_sequences : forall l p, okp p -> Forall op_ok l ->
  exists q, rp_steps l p = Some (q, snd (spec_steps l (value p))) /\ okp q /\ value q = fst (spec_steps l (value p)).
Proof. exact steps_refine. Qed.
Theorem C44_reads : forall p, okp p ->
  rp_get16 p = value p /\ rp_get8hi p = value p / 256 /\ rp_get8lo p = value p mod 256 /\
  rp_get p = (value p / 256, value p mod 256).
Proof. exact reads. Qed.
Theorem C44_from :
  (forall v, word v -> okp (rp_from_u16 v) /\ value (rp_from_u16 v) = v) /\
  (forall v, -32768 <= v < 32768 -> okp (rp_from_i16 v) /\ value (rp_from_i16 v) = if v <? 0 then v + 65536 else v) /\
  (forall lo hi, byte lo -> byte hi -> okp (rp_from_array lo hi) /\ value (rp_from_array lo hi) = 256 * hi + lo) /\
  (forall lo hi, byte lo -> byte hi -> okp (rp_from_tuple (hi, lo)) /\ value (rp_from_tuple (hi, lo)) = 256 * hi + lo).
Proof. exact froms. Qed.
(** Pairs compare (derived [PartialEq], [Hash]) as their numbers do, and every number has its pair. *)
Theorem C44_bijection :
  (forall p, okp p -> word (value p)) /\ (forall p q, okp p -> okp q -> value p = value q -> p = q) /\
  (forall w, word w -> exists p, okp p /\ value p = w).
Proof. exact (conj value_word (conj value_inj value_onto)). Qed.
(** The register functions of the CPU model are these. *)
Theorem C44_model : forall p, okp p ->
  hi8 (value p) = rp_get8hi p /\ lo8 (value p) = rp_get8lo p /\
  (forall v, byte v -> set8hi (value p) v = value (rp_set8hi v p) /\ set8lo (value p) v = value (rp_set8lo v p)) /\
  (forall h l, mk16 h l = value (rp_set h l p)).
Proof. exact model_pairs. Qed.
(** Reading, writing and modifying an 8-bit register through the raw pointer is what the model does... *)
Theorem C44_get_reg : forall Q g px (z : zbytes Q), okz z -> z_get_reg g px z = get_reg g px (cpu_of z).
Proof. exact @get_reg_refines. Qed.
Theorem C44_set_reg : forall Q g px v (z : zbytes Q), okz z -> byte v ->
  exists z', z_set_reg g px v z = Some z' /\ okz z' /\ cpu_of z' = set_reg g px v (cpu_of z).
Proof. exact @set_reg_refines. Qed.
Theorem C44_apply_reg8 : forall Q g px (op : Z -> Z) (z : zbytes Q), okz z -> (forall b, byte b -> byte (op b)) ->
  exists z', z_apply_reg8 g px op z = Some z' /\ okz z' /\
    cpu_of z' = set_reg g px (op (get_reg g px (cpu_of z))) (cpu_of z).
Proof. exact @apply_reg8_refines. Qed.
(** ... and the pointer stays inside its pair and changes one byte only. *)
Theorem C44_pointer : forall Q g px v (z z' : zbytes Q), z_set_reg g px v z = Some z' ->
  zrest z' = zrest z /\ (forall n, n <> fst (reg8_ptr g px) -> zpair z' n = zpair z n) /\
  (forall off, off <> snd (reg8_ptr g px) ->
     deref (zpair z' (fst (reg8_ptr g px))) off = deref (zpair z (fst (reg8_ptr g px))) off).
Proof. exact @set_reg_frame. Qed.

(** The unit test, registers.rs:339-380 in part: wrap-around both ways and the two halves. *)
Example C44_ex_sequence :
  rp_steps [OSet16 0xFFFF; OInc16; ODec16; OSet8lo 0x34; OSet8hi 0x12; OAdd16 0xFFFF; OOp8hi (fun b => 255 - b); OSet16 1; ODecZero; ODecZero]
    (RP 7 9) = Some (RP 0xFF 0xFF, [None; None; None; None; None; None; None; None; Some true; Some false]).
Proof. reflexivity. Qed.
Example C44_ex_from : rp_from_i16 (-2) = RP 0xFE 0xFF /\ rp_from_u16 0x1234 = RP 0x34 0x12 /\ rp_from_tuple (0x12, 0x34) = RP 0x34 0x12.
Proof. auto. Qed.
Example C44_ex_cpu :
  let z := ZB (fun _ => RP 0x34 0x12) (reset NMOS (mkCpu 0 0 0 0 0 0 0 0 0 0 0 0 0 false 0 Mode0 false false false None 0 (mkQ false false))) in
  match z_set_reg H (Some Yfd) 0x56 z with
  | Some z' => iy (cpu_of z') = 0x5634 /\ hl (cpu_of z') = 0x1234
  | None => False
  end.
Proof. cbn. auto. Qed.
Definition C44_all := (@C44_sequences, @C44_reads, @C44_from, @C44_bijection, @C44_model, @C44_get_reg, @C44_set_reg, @C44_apply_reg8, @C44_pointer).
Print Assumptions C44_all.
