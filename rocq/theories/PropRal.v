(** C51. *)
From Coq Require Import ZArith Bool List.
From Verif Require Import Base Parse Cpu Flavours Prog Trace Exec Demo RalMemory RalBus SpecRal RalBusProofs.
Import ListNotations.
Open Scope Z_scope.

(** Whatever is done to the memory of the example computer, every answer is the one its manual promises for what was done before, and no
    read goes through a pointer to a cartridge that is gone. *)
Theorem C51_memory_map : forall rom kb m0 l m r l2, 0 <= kb -> mem_new rom kb = Some m0 ->
  all_allowed [] l -> mem_run l m0 = Some (m, r) -> all_allowed (rev l) l2 ->
  exists m2, mem_run l2 m = Some (m2, answers rom kb (rev l) l2).
Proof. intros rom kb m0 l m r l2 K N A R. exact (further rom kb m0 m l r K N A R l2). Qed.
(** A machine can be made of any ROM of at most 8 kB and at most 48 kB of RAM; a cartridge can be inserted as long as there are not 256. *)
Theorem C51_new : forall rom kb, mem_new rom kb = None <-> 0x2000 < Z.of_nat (length rom) \/ 48 < kb.
Proof. exact new_none. Qed.
Theorem C51_attach_full : forall rom kb m0 l m r x, 0 <= kb -> mem_new rom kb = Some m0 ->
  all_allowed [] l -> mem_run l m0 = Some (m, r) -> (mem_op (MInsert x) m = None <-> length (cartridges (rev l)) = 256%nat).
Proof. intros rom kb m0 l m r x K N A R. exact (attach_full rom kb m0 m l r K N A R x). Qed.
(** Of many cartridges those are inserted for which there is room. *)
Theorem C51_attach_many : forall rom kb m0 l m r boxes, 0 <= kb -> mem_new rom kb = Some m0 ->
  all_allowed [] l -> mem_run l m0 = Some (m, r) -> NoDup (map rb_id (cartridges (rev l) ++ boxes)) ->
  let n := Nat.min (length boxes) (256 - length (cartridges (rev l))) in
  exists m', attach_exroms boxes m = Some (m', Z.of_nat n) /\
    forall l2, let h := rev (map MInsert (firstn n boxes)) ++ rev l in
      all_allowed h l2 -> exists m2, mem_run l2 m' = Some (m2, answers rom kb h l2).
Proof. intros rom kb m0 l m r boxes K N A R. exact (attach_many rom kb m0 m l r K N A R boxes). Qed.
(** The same for what a program sees through the bus, with any devices and any code run by the CPU, until a device panics. *)
Theorem C51_bus : forall D X (dv : dev D) limit (p : prog Z unit unit X) rom kb m0 l m r d c x m' d' c' log, 0 <= kb ->
  mem_new rom kb = Some m0 -> all_allowed [] l -> mem_run l m0 = Some (m, r) ->
  runl (ral_host 255 124 dv limit) p (Some (m, d)) c = Some (x, Some (m', d'), c', log) ->
  log_mem rom kb (rev l) log /\
  forall l2, all_allowed (history log (rev l)) l2 -> exists m2, mem_run l2 m' = Some (m2, answers rom kb (history log (rev l)) l2).
Proof. intros D X dv limit p rom kb m0 l m r d c x m' d' c' log K N A R. exact (bus_run rom kb m0 m l r K N A R dv limit p d c x m' d' c' log). Qed.
(** Only a panicking device can stop the machine: the memory cannot. *)
Theorem C51_never_dangling : forall D X (dv : dev D) limit (p : prog Z unit unit X) rom kb m0 l m r d c x b c' log, 0 <= kb ->
  mem_new rom kb = Some m0 -> all_allowed [] l -> mem_run l m0 = Some (m, r) -> calm dv ->
  runl (ral_host 255 124 dv limit) p (Some (m, d)) c = Some (x, b, c', log) -> exists m' d', b = Some (m', d').
Proof. intros D X dv limit p rom kb m0 l m r d c x b c' log K N A R. exact (bus_calm rom kb m0 m l r K N A R dv limit p d c x b c' log). Qed.
(** Code outside the ROM cannot change the kernel's page. *)
Theorem C51_kernel_page_private : forall D X (dv : dev D) limit (p : prog Z unit unit X) rom kb m0 l m r d c x m' d' c' log, 0 <= kb ->
  mem_new rom kb = Some m0 -> all_allowed [] l -> mem_run l m0 = Some (m, r) ->
  runl (ral_host 255 124 dv limit) p (Some (m, d)) c = Some (x, Some (m', d'), c', log) ->
  in_rom (rev l) = false -> Forall not_from_rom log -> forall a, 0x2000 <= a < 0x4000 ->
  exists v w k k', mem_run [MFetch 0; MRead a] m = Some (k, [v; w]) /\ mem_run [MFetch 0; MRead a] m' = Some (k', [v; w]).
Proof. intros D X dv limit p rom kb m0 l m r d c x m' d' c' log K N A R. exact (kernel_private rom kb m0 m l r K N A R dv limit p d c x m' d' c' log). Qed.
Definition C51_all := (C51_memory_map, C51_new, C51_attach_full, C51_attach_many, C51_bus, C51_never_dangling, C51_kernel_page_private).
Print Assumptions C51_all.

(** The kernel in the ROM stores 7 in its page and jumps to 4000h, where LD A,(2000h) sees the second cartridge, and LD (2001h),A has
    no effect. *)
Definition ral_rom : list Z := [0x3E; 0x07; 0x32; 0x00; 0x20; 0xC3; 0x00; 0x40].
Definition ral_setup : list mop :=
  [MInsert (mkRom 1 (fun _ => 0x55)); MInsert (mkRom 2 (fun i => 0x60 + i)); MSelect 1] ++
  map (fun x => MWrite (0x4000 + Z.of_nat (fst x)) (snd x)) (combine (seq 0 7) [0x3A; 0x00; 0x20; 0x32; 0x01; 0x20; 0x76]).
Definition ral_ready : option ralmem :=
  match mem_new ral_rom 16 with Some m => option_map fst (mem_run ral_setup m) | None => None end.
Example C51_example_allowed : all_allowed [] ral_setup.
Proof. cbn. repeat (split; try (intuition discriminate)); cbn; intuition (discriminate || auto with arith). Qed.
Example C51_example : match ral_ready with
  | Some m => match run (ral_host 255 124 terminator 1100) (execute_with_limit NMOS true 100 (nm 0)) (Some (m, tt)) (tclock_new 1000) with
      | Some (Some (c, r), Some (m', _), k, _) =>
          (hi8 (af c), tc_cur k, option_map snd (mem_run [MRead 0x2000; MRead 0x2001; MRead16 0x1FFF; MFetch 0; MRead 0x2000; MRead 0x2001; MRead16 0x1FFF;
            MRead 0x7FFF; MRead 0x8000; MRead16 0xFFFF] m')) =
          (0x60, 1060, Some [0x60; 0x61; 0x60FF; 0x3E; 7; 0; 0x07FF; 0; 255; 0x3EFF])
      | _ => False
      end
  | None => False
  end.
Proof. vm_compute. reflexivity. Qed.
(** The test memory_read16_works of memory.rs at the edges of the banks. *)
Example C51_read16 : match mem_new (map (fun i => Z.of_nat i mod 256) (seq 0 0x2000)) 48 with
  | Some m => option_map snd (mem_run ([MFetch 0] ++ map (fun a => MWrite a (a mod 256)) [0x2000; 0x2001; 0x3FFE; 0x3FFF; 0x4000; 0x4001; 0xFFFE; 0xFFFF]
      ++ [MRead16 0x1FFE; MRead16 0x1FFF; MRead16 0x2000; MRead16 0x3FFE; MRead16 0x3FFF; MRead16 0x4000; MRead16 0xFFFE; MRead16 0xFFFF]) m) =
      Some [0; 0; 0; 0; 0; 0; 0; 0; 0; 0xFFFE; 0x00FF; 0x0100; 0xFFFE; 0x00FF; 0x0100; 0xFFFE; 0x00FF]
  | None => False
  end.
Proof. vm_compute. reflexivity. Qed.
