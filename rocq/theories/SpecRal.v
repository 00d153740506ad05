(** The memory of the RAL 1243 as its manual describes it (examples/ral1243/README.md, "Memory" and "Memory Controller"), told from the
    history of what was done to it.  Histories are lists, the latest first. *)
From Coq Require Import ZArith Bool List.
From Verif Require Import Base Trace RalMemory RalBus.
Import ListNotations.
Open Scope Z_scope.

(** The cartridges inside, in order of insertion. *)
Fixpoint cartridges (h : list mop) : list rombox :=
  match h with
  | [] => []
  | MInsert x :: h => cartridges h ++ [x]
  | MEject :: h => []
  | _ :: h => cartridges h
  end.
Fixpoint selected (h : list mop) : Z :=
  match h with [] => 0 | MSelect n :: h => n | _ :: h => selected h end.
(** Is the program counter in the ROM? *)
Fixpoint in_rom (h : list mop) : bool :=
  match h with [] => false | MFetch pc :: h => pc <? 0x2000 | _ :: h => in_rom h end.
(** What was last stored there: only the kernel can store in its page. *)
Fixpoint kernel_page (h : list mop) (a : Z) : Z :=
  match h with
  | [] => 0
  | MWrite b v :: h => if in_rom h && (b =? a) then v else kernel_page h a
  | _ :: h => kernel_page h a
  end.
Fixpoint user_ram (h : list mop) (a : Z) : Z :=
  match h with [] => 0 | MWrite b v :: h => if b =? a then v else user_ram h a | _ :: h => user_ram h a end.
Definition cartridge (h : list mop) (i : Z) : Z :=
  match nth_error (cartridges h) (Z.to_nat (selected h)) with Some x => rb_data x i | None => 255 end.
(** The byte at an address of a machine with this ROM and this much RAM. *)
Definition view (rom : list Z) (kb : Z) (h : list mop) (a : Z) : Z :=
  if a <? 0x2000 then nth (Z.to_nat a) rom 255
  else if a <? 0x4000 then if in_rom h then kernel_page h a else cartridge h (a - 0x2000)
  else if a <? 0x4000 + kb * 1024 then user_ram h a else 255.
Definition answer (rom : list Z) (kb : Z) (h : list mop) (o : mop) : Z :=
  match o with
  | MFetch pc => view rom kb (o :: h) pc
  | MRead a => view rom kb h a
  | MRead16 a => view rom kb h a + 256 * view rom kb h ((a + 1) mod 0x10000)
  | MSelected => selected h
  | MInsert _ => Z.of_nat (length (cartridges h)) + 1
  | MEject => Z.of_nat (length (cartridges h))
  | _ => 0
  end.
Fixpoint answers (rom : list Z) (kb : Z) (h : list mop) (l : list mop) : list Z :=
  match l with [] => [] | o :: l => answer rom kb h o :: answers rom kb (o :: h) l end.

(** Calls that can be made: the types of the arguments; an inserted box is not inside already (it is owned by the caller), and there is
    room for it. *)
Definition allowed (h : list mop) (o : mop) : Prop :=
  match o with
  | MFetch a | MRead a | MRead16 a => 0 <= a < 0x10000
  | MWrite a v => 0 <= a < 0x10000
  | MSelect n => 0 <= n < 256
  | MInsert x => ~ In (rb_id x) (map rb_id (cartridges h)) /\ (length (cartridges h) < 256)%nat
  | _ => True
  end.
Fixpoint all_allowed (h : list mop) (l : list mop) : Prop :=
  match l with [] => True | o :: l => allowed h o /\ all_allowed (o :: h) l end.

(** ** What a program sees on the bus

    The port that selects cartridges. *)
Definition memory_port (p : Z) : bool := p mod 256 =? 124.
(** The answers in the log of a run are those of the memory with the past [h]. *)
Fixpoint log_mem (rom : list Z) (kb : Z) (h : list mop) (l : list (ev Z unit unit)) : Prop :=
  match l with
  | [] => True
  | ERd a _ v :: l | ERdDebug a v :: l => v = view rom kb h (a mod 0x10000) mod 256 /\ log_mem rom kb h l
  | ERd16 a _ v :: l =>
      v = (view rom kb h (a mod 0x10000) + 256 * view rom kb h ((a + 1) mod 0x10000)) mod 0x10000 /\ log_mem rom kb h l
  | EOp a _ _ v :: l =>
      let h := MFetch (a mod 0x10000) :: h in v = view rom kb h (a mod 0x10000) mod 256 /\ log_mem rom kb h l
  | EWr a v _ :: l => log_mem rom kb (MWrite (a mod 0x10000) (v mod 256) :: h) l
  | EIn p _ v w :: l => (memory_port p = true -> v = selected h /\ w = None) /\ log_mem rom kb h l
  | EOut p v _ b w :: l =>
      if memory_port p then b = None /\ w = None /\ log_mem rom kb (MSelect (v mod 256) :: h) l else log_mem rom kb h l
  | _ :: l => log_mem rom kb h l
  end.
(** The past of the memory after the run. *)
Fixpoint history (l : list (ev Z unit unit)) (h : list mop) : list mop :=
  match l with
  | [] => h
  | EOp a _ _ _ :: l => history l (MFetch (a mod 0x10000) :: h)
  | EWr a v _ :: l => history l (MWrite (a mod 0x10000) (v mod 256) :: h)
  | EOut p v _ _ _ :: l => history l (if memory_port p then MSelect (v mod 256) :: h else h)
  | _ :: l => history l h
  end.
(** No instruction is fetched from the ROM. *)
Definition not_from_rom (e : ev Z unit unit) : Prop := match e with EOp a _ _ _ => 0x2000 <= a mod 0x10000 | _ => True end.
(** A device that never panics. *)
Definition calm {D} (dv : dev D) : Prop :=
  (forall t d, dv_m1 dv t d <> None) /\ (forall p t d, dv_read_io dv p t d <> None) /\ (forall p v t d, dv_write_io dv p v t d <> None) /\
  (forall t d, dv_is_irq dv t d <> None) /\ (forall p t d, dv_irq_data dv p t d <> None) /\ (forall p t d, dv_reti dv p t d <> None).
