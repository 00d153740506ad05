(** What the repeating instructions are for (C25-C28), on plain memories and numbers. *)
From Coq Require Import ZArith Bool List.
From Verif Require Import Base Cpu Parse Prog Trace Clock SpecAlu SpecState SpecIsa.
Import ListNotations.
Open Scope Z_scope.

(** [n] bytes copied one after the other, upwards ([d = 1]) or downwards ([d = -1]). *)
Fixpoint copy (n : nat) (d src dst : Z) (m : mem) : mem :=
  match n with
  | O => m
  | S n => copy n d ((src + d) mod 65536) ((dst + d) mod 65536) (fun a => if a =? dst then m src else m a)
  end.
(** The address [i] steps from [a]. *)
Definition nth_addr (a d i : Z) : Z := (a + d * i) mod 65536.
(** [l] stored one after the other. *)
Fixpoint store_list (l : list Z) (d dst : Z) (m : mem) : mem :=
  match l with
  | [] => m
  | v :: l => store_list l d ((dst + d) mod 65536) (fun a => if a =? dst then v else m a)
  end.
(** A counter: 0 stands for its full range. *)
Definition times (full b : Z) : Z := if b =? 0 then full else b.

(** The accesses to data: everything but op-code fetches and looking at the interrupt line. *)
Definition data {WB RB} (bl : list (bev WB RB)) : list (bev WB RB) :=
  filter (fun e => match e with VOp _ _ _ | VIrq _ => false | _ => true end) bl.
(** Reading [l] (with wait states) from ports B,C counting B down, storing from [a] on. *)
Fixpoint in_seq {WB RB} (l : list (Z * option Z)) (bc a d : Z) : list (bev WB RB) :=
  match l with
  | [] => []
  | (v, w) :: l => VIn bc v w :: VWr a v :: in_seq l ((bc - 256) mod 65536) ((a + d) mod 65536) d
  end.
(** Writing the bytes of [m] from [a] on to ports B,C counting B down first; [l]: the devices' answers. *)
Fixpoint out_seq {WB RB} (l : list (option WB * option Z)) (bc a d : Z) (m : mem) : list (bev WB RB) :=
  match l with
  | [] => []
  | (r, w) :: l => VRd a (m a) :: VOut ((bc - 256) mod 65536) (m a) r w ::
      out_seq l ((bc - 256) mod 65536) ((a + d) mod 65536) d m
  end.

Section Same.
Context {Q : Type}.
Implicit Types c : cpu Q.
(** Everything but BC, DE, HL, F, PC, MEMPTR, R is unchanged, and the CPU is not halted, after EI or after a prefix. *)
Record same_rest c c' : Prop := mkRest {
  sr_a : get_acc c' = get_acc c; sr_af' : af_alt c' = af_alt c; sr_bc' : bc_alt c' = bc_alt c;
  sr_de' : de_alt c' = de_alt c; sr_hl' : hl_alt c' = hl_alt c; sr_ix : ix c' = ix c; sr_iy : iy c' = iy c;
  sr_sp : sp c' = sp c; sr_i : get_i c' = get_i c; sr_im : im c' = im c; sr_iff1 : iff1 c' = iff1 c;
  sr_iff2 : iff2 c' = iff2 c; sr_halt : halt c' = false; sr_ei : last_ei c' = false; sr_px : prefix c' = None }.
(** No maskable interrupt will be accepted: disabled, or never signalled. *)
Definition quiet {TS WB RB BS CK} (Hs : host TS WB RB BS CK) c : Prop :=
  iff1 c = false \/ forall b t, snd (h_is_irq Hs b t) = false.
End Same.
