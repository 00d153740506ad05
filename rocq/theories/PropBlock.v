(** Properties C25-C28: the repeating instructions, run to completion on RAM.
    [steps FL j] is [j] calls of [execute_next]; [quiet]: no maskable interrupt gets accepted meanwhile. *)
From Coq Require Import ZArith Bool List Lia.
From Verif Require Import Base Flags Ops Parse Cpu Flavours Prog Trace Internal Instr Exec Range Clock Demo
  SpecAlu SpecState SpecIsa SpecCycles SpecStep SpecBlock IsaLink IsaRun Steps Block.
Import ListNotations.
Open Scope Z_scope.

(** ** C25 *)
(** After any number of steps up to completion; [copy] copies one byte after the other. *)
Theorem C25_steps : forall Q T TS WB RB BS CK (FL : Flavour Q) (ch : chip T) absq, models FL ch absq ->
  forall (Hs : host TS WB RB BS CK) mo, ram_host Hs mo ->
  forall (dn : bool), let d := if dn then -1 else 1 in
  forall j (c : cpu Q) b k, wf c -> halt c = false -> quiet Hs c ->
  mo b (pc c) = 0xED -> mo b ((pc c + 1) mod 65536) = (if dn then 0xB8 else 0xB0) ->
  let n := times 65536 (bc c) in let i := Z.of_nat (S j) in i <= n ->
  (forall x, 0 <= x < Z.of_nat j -> nth_addr (de c) d x <> pc c /\ nth_addr (de c) d x <> (pc c + 1) mod 65536) ->
  exists c' b' k' l, runl Hs (steps FL (S j) c) b k = Some (c', b', k', l) /\ wf c' /\
    same_rest c c' /\ bc c' = (bc c - i) mod 65536 /\ hl c' = nth_addr (hl c) d i /\ de c' = nth_addr (de c) d i /\
    pc c' = (if i =? n then (pc c + 2) mod 65536 else pc c) /\
    get_flags c' = s_ldx (get_acc c) (copy j d (hl c) (de c) (mo b) (nth_addr (hl c) d (Z.of_nat j))) (i =? n) (get_flags c) /\
    (forall a, mo b' a = copy (S j) d (hl c) (de c) (mo b) a) /\
    tsum (clocks l) = 21 * i - (if i =? n then 5 else 0).
Proof. intros Q T TS WB RB BS CK FL ch absq M Hs mo HR. exact (ldx_loop FL ch absq (models_ok _ _ _ M) Hs mo HR). Qed.
Theorem C25_complete : forall Q T TS WB RB BS CK (FL : Flavour Q) (ch : chip T) absq, models FL ch absq ->
  forall (Hs : host TS WB RB BS CK) mo, ram_host Hs mo ->
  forall (dn : bool) (c : cpu Q) b k, let d := if dn then -1 else 1 in let n := times 65536 (bc c) in
  wf c -> halt c = false -> quiet Hs c ->
  mo b (pc c) = 0xED -> mo b ((pc c + 1) mod 65536) = (if dn then 0xB8 else 0xB0) ->
  (forall i, 0 <= i < n - 1 -> nth_addr (de c) d i <> pc c /\ nth_addr (de c) d i <> (pc c + 1) mod 65536) ->
  exists c' b' k' l, runl Hs (steps FL (Z.to_nat n) c) b k = Some (c', b', k', l) /\ same_rest c c' /\
    bc c' = 0 /\ hl c' = nth_addr (hl c) d n /\ de c' = nth_addr (de c) d n /\ pc c' = (pc c + 2) mod 65536 /\
    (forall a, mo b' a = copy (Z.to_nat n) d (hl c) (de c) (mo b) a) /\ tsum (clocks l) = 21 * (n - 1) + 16.
Proof. intros Q T TS WB RB BS CK FL ch absq M Hs mo HR. exact (ldx_complete FL ch absq (models_ok _ _ _ M) Hs mo HR). Qed.
(** What the copying amounts to: a byte of the source not overwritten before its turn arrives unchanged; bytes outside
    the destination stay; with the destination one step ahead of the source, the first byte fills the block. *)
Theorem C25_move : forall n (dn : bool) s t m, let d := if dn then -1 else 1 in word s -> word t -> Z.of_nat n <= 65536 ->
  forall i, 0 <= i < Z.of_nat n -> (forall i', 0 <= i' < i -> nth_addr t d i' <> nth_addr s d i) ->
  copy n d s t m (nth_addr t d i) = m (nth_addr s d i).
Proof. exact copy_move. Qed.
Theorem C25_outside : forall n d s t m a, word s -> word t ->
  (forall i, 0 <= i < Z.of_nat n -> nth_addr t d i <> a) -> copy n d s t m a = m a.
Proof. exact copy_other. Qed.
Theorem C25_fill : forall n (dn : bool) s m, let d := if dn then -1 else 1 in word s ->
  forall i, 0 <= i <= Z.of_nat n -> copy n d s ((s + d) mod 65536) m (nth_addr s d i) = m s.
Proof. exact copy_fill. Qed.
(** LDDR across the address wrap, 3 bytes: 21 + 21 + 16. *)
Example C25_ex :
  let c := set_bc 3 (set_hl 1 (set_de 0x8001 (nm 0x100))) in
  match runl (demo 0) (steps NMOS 3 c) (poke 0xFFFF [11; 22; 33] (poke 0x100 [0xED; 0xB8] m0)) 0 with
  | Some (c', m, k, l) => bc c' = 0 /\ hl c' = 0xFFFE /\ de c' = 0x7FFE /\ pc c' = 0x102 /\ k = 58 /\
      m 0x7FFF = 11 /\ m 0x8000 = 22 /\ m 0x8001 = 33 /\ get_flags c' = 0xE9
  | None => False
  end.
Proof. vm_compute. repeat split. Qed.
(** LDIR filling. *)
Example C25_ex_fill :
  let c := set_bc 4 (set_hl 0x4000 (set_de 0x4001 (nm 0x100))) in
  match runl (demo 0) (steps NMOS 4 c) (poke 0x4000 [0xAA] (poke 0x100 [0xED; 0xB0] m0)) 0 with
  | Some (c', m, k, l) => bc c' = 0 /\ pc c' = 0x102 /\ m 0x4003 = 0xAA /\ m 0x4004 = 0xAA /\ m 0x4005 = 0
  | None => False
  end.
Proof. vm_compute. repeat split. Qed.
Definition C25_all := (@C25_steps, @C25_complete, @C25_move, @C25_outside, @C25_fill).
Print Assumptions C25_all.

(** ** C26 *)
(** After any number of steps, none of the bytes before the last one examined being equal to A. *)
Theorem C26_steps : forall Q T TS WB RB BS CK (FL : Flavour Q) (ch : chip T) absq, models FL ch absq ->
  forall (Hs : host TS WB RB BS CK) mo, ram_host Hs mo ->
  forall (dn : bool), let d := if dn then -1 else 1 in
  forall j (c : cpu Q) b k, wf c -> halt c = false -> quiet Hs c ->
  mo b (pc c) = 0xED -> mo b ((pc c + 1) mod 65536) = (if dn then 0xB9 else 0xB1) ->
  let n := times 65536 (bc c) in Z.of_nat (S j) <= n ->
  (forall i, 0 <= i < Z.of_nat j -> mo b (nth_addr (hl c) d i) <> get_acc c) ->
  let v := mo b (nth_addr (hl c) d (Z.of_nat j)) in
  let stop := (Z.of_nat (S j) =? n) || (get_acc c =? v) in
  exists c' b' k' l, runl Hs (steps FL (S j) c) b k = Some (c', b', k', l) /\ wf c' /\
    same_rest c c' /\ de c' = de c /\ bc c' = (bc c - Z.of_nat (S j)) mod 65536 /\
    hl c' = nth_addr (hl c) d (Z.of_nat (S j)) /\
    pc c' = (if stop then (pc c + 2) mod 65536 else pc c) /\
    get_flags c' = s_cpx (get_acc c) v (Z.of_nat (S j) =? n) (get_flags c) /\
    (forall a, mo b' a = mo b a) /\
    tsum (clocks l) = 21 * Z.of_nat (S j) - (if stop then 5 else 0).
Proof. intros Q T TS WB RB BS CK FL ch absq M Hs mo HR. exact (cpx_loop FL ch absq (models_ok _ _ _ M) Hs mo HR). Qed.
Theorem C26_complete : forall Q T TS WB RB BS CK (FL : Flavour Q) (ch : chip T) absq, models FL ch absq ->
  forall (Hs : host TS WB RB BS CK) mo, ram_host Hs mo ->
  forall (dn : bool) (c : cpu Q) b k, let d := if dn then -1 else 1 in let n := times 65536 (bc c) in
  wf c -> halt c = false -> quiet Hs c ->
  mo b (pc c) = 0xED -> mo b ((pc c + 1) mod 65536) = (if dn then 0xB9 else 0xB1) ->
  exists j c' b' k' l, let i := Z.of_nat j in runl Hs (steps FL j c) b k = Some (c', b', k', l) /\ same_rest c c' /\
    1 <= i <= n /\ (forall x, 0 <= x < i - 1 -> mo b (nth_addr (hl c) d x) <> get_acc c) /\
    (i = n \/ mo b (nth_addr (hl c) d (i - 1)) = get_acc c) /\
    hl c' = nth_addr (hl c) d i /\ bc c' = n - i /\ de c' = de c /\ pc c' = (pc c + 2) mod 65536 /\
    Zf (get_flags c') = (get_acc c =? mo b (nth_addr (hl c) d (i - 1))) /\ Pf (get_flags c') = negb (bc c' =? 0) /\
    Cf (get_flags c') = Cf (get_flags c) /\
    (forall a, mo b' a = mo b a) /\ tsum (clocks l) = 21 * (i - 1) + 16.
Proof. intros Q T TS WB RB BS CK FL ch absq M Hs mo HR. exact (cpx_complete FL ch absq (models_ok _ _ _ M) Hs mo HR). Qed.
(** A = 0xFF found as the third of "65536" bytes. *)
Example C26_ex :
  let c := set_bc 0 (set_hl 0xFFFF (nm 0x100)) in
  match runl (demo 0) (steps NMOS 3 c) (poke 0xFFFF [11; 22; 0xFF] (poke 0x100 [0xED; 0xB1] m0)) 0 with
  | Some (c', m, k, l) => bc c' = 65533 /\ hl c' = 2 /\ pc c' = 0x102 /\ k = 58 /\ get_flags c' = 0x47
  | None => False
  end.
Proof. vm_compute. repeat split. Qed.
(** Not found. *)
Example C26_ex_not :
  let c := set_bc 2 (set_hl 0xFFFF (nm 0x100)) in
  match runl (demo 0) (steps NMOS 2 c) (poke 0xFFFF [11; 22; 0xFF] (poke 0x100 [0xED; 0xB1] m0)) 0 with
  | Some (c', m, k, l) => bc c' = 0 /\ hl c' = 1 /\ pc c' = 0x102 /\ k = 37 /\ get_flags c' = 0x8B
  | None => False
  end.
Proof. vm_compute. repeat split. Qed.
Definition C26_all := (@C26_steps, @C26_complete).
Print Assumptions C26_all.

(** ** C27 *)
(** INIR, INDR: [vs] are the bytes the device supplied (and its wait states). Every input is followed by its store. *)
Theorem C27_in_steps : forall Q T TS WB RB BS CK (FL : Flavour Q) (ch : chip T) absq, models FL ch absq ->
  forall (Hs : host TS WB RB BS CK) mo, ram_host Hs mo ->
  forall (dn : bool), let d := if dn then -1 else 1 in
  forall j (c : cpu Q) b k, wf c -> halt c = false -> quiet Hs c ->
  mo b (pc c) = 0xED -> mo b ((pc c + 1) mod 65536) = (if dn then 0xBA else 0xB2) ->
  let n := times 256 (bc c / 256) in Z.of_nat (S j) <= n ->
  (forall i, 0 <= i < Z.of_nat j -> nth_addr (hl c) d i <> pc c /\ nth_addr (hl c) d i <> (pc c + 1) mod 65536) ->
  exists c' b' k' l vs, runl Hs (steps FL (S j) c) b k = Some (c', b', k', l) /\ wf c' /\
    same_rest c c' /\ de c' = de c /\ length vs = S j /\ Forall isbyte (map fst vs) /\
    data (buses l) = in_seq vs (bc c) (hl c) d /\
    bc c' = (bc c - 256 * Z.of_nat (S j)) mod 65536 /\
    hl c' = nth_addr (hl c) d (Z.of_nat (S j)) /\
    pc c' = (if Z.of_nat (S j) =? n then (pc c + 2) mod 65536 else pc c) /\
    get_flags c' = s_iox (fst (last vs (0, None))) (bc c' / 256) ((bc c + d) mod 256) /\
    (forall a, mo b' a = store_list (map fst vs) d (hl c) (mo b) a) /\
    tsum (clocks l) = 21 * Z.of_nat (S j) - (if Z.of_nat (S j) =? n then 5 else 0) + waits (data (buses l)).
Proof. intros Q T TS WB RB BS CK FL ch absq M Hs mo HR. exact (inx_loop FL ch absq (models_ok _ _ _ M) Hs mo HR). Qed.
Theorem C27_in_complete : forall Q T TS WB RB BS CK (FL : Flavour Q) (ch : chip T) absq, models FL ch absq ->
  forall (Hs : host TS WB RB BS CK) mo, ram_host Hs mo ->
  forall (dn : bool) (c : cpu Q) b k, let d := if dn then -1 else 1 in let n := times 256 (bc c / 256) in
  wf c -> halt c = false -> quiet Hs c ->
  mo b (pc c) = 0xED -> mo b ((pc c + 1) mod 65536) = (if dn then 0xBA else 0xB2) ->
  (forall i, 0 <= i < n - 1 -> nth_addr (hl c) d i <> pc c /\ nth_addr (hl c) d i <> (pc c + 1) mod 65536) ->
  exists c' b' k' l vs, runl Hs (steps FL (Z.to_nat n) c) b k = Some (c', b', k', l) /\ same_rest c c' /\
    Z.of_nat (length vs) = n /\ data (buses l) = in_seq vs (bc c) (hl c) d /\
    (forall i, (i < length vs)%nat -> mo b' (nth_addr (hl c) d (Z.of_nat i)) = nth i (map fst vs) 0) /\
    (forall a, (forall i, (i < length vs)%nat -> nth_addr (hl c) d (Z.of_nat i) <> a) -> mo b' a = mo b a) /\
    de c' = de c /\ bc c' = bc c mod 256 /\ hl c' = nth_addr (hl c) d n /\ pc c' = (pc c + 2) mod 65536 /\
    Zf (get_flags c') = true /\ tsum (clocks l) = 21 * (n - 1) + 16 + waits (buses l).
Proof. intros Q T TS WB RB BS CK FL ch absq M Hs mo HR. exact (inx_complete FL ch absq (models_ok _ _ _ M) Hs mo HR). Qed.
(** OTIR, OTDR: [rs] are the device's answers (break requests, after which the run is continued, and wait states). *)
Theorem C27_out_steps : forall Q T TS WB RB BS CK (FL : Flavour Q) (ch : chip T) absq, models FL ch absq ->
  forall (Hs : host TS WB RB BS CK) mo, ram_host Hs mo ->
  forall (dn : bool), let d := if dn then -1 else 1 in
  forall j (c : cpu Q) b k, wf c -> halt c = false -> quiet Hs c ->
  mo b (pc c) = 0xED -> mo b ((pc c + 1) mod 65536) = (if dn then 0xBB else 0xB3) ->
  let n := times 256 (bc c / 256) in Z.of_nat (S j) <= n ->
  exists c' b' k' l rs, runl Hs (steps FL (S j) c) b k = Some (c', b', k', l) /\ wf c' /\
    same_rest c c' /\ de c' = de c /\ length rs = S j /\
    data (buses l) = out_seq rs (bc c) (hl c) d (mo b) /\
    bc c' = (bc c - 256 * Z.of_nat (S j)) mod 65536 /\
    hl c' = nth_addr (hl c) d (Z.of_nat (S j)) /\
    pc c' = (if Z.of_nat (S j) =? n then (pc c + 2) mod 65536 else pc c) /\
    get_flags c' = s_iox (mo b (nth_addr (hl c) d (Z.of_nat j))) (bc c' / 256) (hl c' mod 256) /\
    (forall a, mo b' a = mo b a) /\
    tsum (clocks l) = 21 * Z.of_nat (S j) - (if Z.of_nat (S j) =? n then 5 else 0) + waits (data (buses l)).
Proof. intros Q T TS WB RB BS CK FL ch absq M Hs mo HR. exact (outx_loop FL ch absq (models_ok _ _ _ M) Hs mo HR). Qed.
Theorem C27_out_complete : forall Q T TS WB RB BS CK (FL : Flavour Q) (ch : chip T) absq, models FL ch absq ->
  forall (Hs : host TS WB RB BS CK) mo, ram_host Hs mo ->
  forall (dn : bool) (c : cpu Q) b k, let d := if dn then -1 else 1 in let n := times 256 (bc c / 256) in
  wf c -> halt c = false -> quiet Hs c ->
  mo b (pc c) = 0xED -> mo b ((pc c + 1) mod 65536) = (if dn then 0xBB else 0xB3) ->
  exists c' b' k' l rs, runl Hs (steps FL (Z.to_nat n) c) b k = Some (c', b', k', l) /\ same_rest c c' /\
    Z.of_nat (length rs) = n /\ data (buses l) = out_seq rs (bc c) (hl c) d (mo b) /\
    (forall a, mo b' a = mo b a) /\
    de c' = de c /\ bc c' = bc c mod 256 /\ hl c' = nth_addr (hl c) d n /\ pc c' = (pc c + 2) mod 65536 /\
    Zf (get_flags c') = true /\ tsum (clocks l) = 21 * (n - 1) + 16 + waits (buses l).
Proof. intros Q T TS WB RB BS CK FL ch absq M Hs mo HR. exact (outx_complete FL ch absq (models_ok _ _ _ M) Hs mo HR). Qed.
(** OTIR of two bytes with B = 2: ports 0x0134 and 0x0034. *)
Example C27_ex_out :
  let c := set_bc 0x0234 (set_hl 0xFFFF (nm 0x100)) in
  match runl (rig 0 0) (steps NMOS 2 c) (poke 0xFFFF [11; 22] (poke 0x100 [0xED; 0xB3] m0)) 0 with
  | Some (c', m, k, l) => bc c' = 0x34 /\ hl c' = 1 /\ pc c' = 0x102 /\ k = 37 /\
      data (buses l) = [VRd 0xFFFF 11; VOut 0x0134 11 (Some 11) None; VRd 0 22; VOut 0x0034 22 (Some 22) None]
  | None => False
  end.
Proof. vm_compute. repeat split. Qed.
(** INDR of three bytes from the default device, which supplies 0xFF. *)
Example C27_ex_in :
  let c := set_bc 0x0334 (set_hl 0x0001 (nm 0x100)) in
  match runl (rig 0 0) (steps NMOS 3 c) (poke 0x100 [0xED; 0xBA] m0) 0 with
  | Some (c', m, k, l) => bc c' = 0x34 /\ hl c' = 0xFFFE /\ pc c' = 0x102 /\ k = 58 /\ m 1 = 0xFF /\ m 0xFFFF = 0xFF /\ m 0xFFFE = 0 /\
      map (fun e => match e with VIn p _ _ => p | _ => 0 end) (data (buses l)) = [0x0334; 0; 0x0234; 0; 0x0134; 0]
  | None => False
  end.
Proof. vm_compute. repeat split. Qed.
Definition C27_all := (@C27_in_steps, @C27_in_complete, @C27_out_steps, @C27_out_complete).
Print Assumptions C27_all.

(** ** C28 *)
Theorem C28_steps : forall Q T TS WB RB BS CK (FL : Flavour Q) (ch : chip T) absq, models FL ch absq ->
  forall (Hs : host TS WB RB BS CK) mo, ram_host Hs mo ->
  forall j (c : cpu Q) b k, wf c -> halt c = false -> quiet Hs c ->
  mo b (pc c) = 0x10 -> mo b ((pc c + 1) mod 65536) = 0xFE ->
  let n := times 256 (bc c / 256) in Z.of_nat (S j) <= n ->
  exists c' b' k' l, runl Hs (steps FL (S j) c) b k = Some (c', b', k', l) /\ wf c' /\
    same_rest c c' /\ hl c' = hl c /\ de c' = de c /\ get_flags c' = get_flags c /\
    bc c' = (bc c - 256 * Z.of_nat (S j)) mod 65536 /\
    pc c' = (if Z.of_nat (S j) =? n then (pc c + 2) mod 65536 else pc c) /\
    (forall a, mo b' a = mo b a) /\
    tsum (clocks l) = 13 * Z.of_nat (S j) - (if Z.of_nat (S j) =? n then 5 else 0).
Proof. intros Q T TS WB RB BS CK FL ch absq M Hs mo HR. exact (djnz_loop FL ch absq (models_ok _ _ _ M) Hs mo HR). Qed.
Theorem C28_complete : forall Q T TS WB RB BS CK (FL : Flavour Q) (ch : chip T) absq, models FL ch absq ->
  forall (Hs : host TS WB RB BS CK) mo, ram_host Hs mo ->
  forall (c : cpu Q) b k, let n := times 256 (bc c / 256) in wf c -> halt c = false -> quiet Hs c ->
  mo b (pc c) = 0x10 -> mo b ((pc c + 1) mod 65536) = 0xFE ->
  exists c' b' k' l, runl Hs (steps FL (Z.to_nat n) c) b k = Some (c', b', k', l) /\ same_rest c c' /\
    hl c' = hl c /\ de c' = de c /\ get_flags c' = get_flags c /\ bc c' = bc c mod 256 /\ pc c' = (pc c + 2) mod 65536 /\
    (forall a, mo b' a = mo b a) /\ tsum (clocks l) = 13 * (n - 1) + 8.
Proof. intros Q T TS WB RB BS CK FL ch absq M Hs mo HR. exact (djnz_complete FL ch absq (models_ok _ _ _ M) Hs mo HR). Qed.
Example C28_ex :
  let c := set_bc 0x0355 (nm 0xFFFF) in
  match runl (demo 0) (steps NMOS 3 c) (poke 0xFFFF [0x10; 0xFE] m0) 0 with
  | Some (c', m, k, l) => bc c' = 0x55 /\ pc c' = 1 /\ k = 34
  | None => False
  end.
Proof. vm_compute. repeat split. Qed.
(** B = 0 stands for 256. *)
Example C28_ex_256 :
  match runl (demo 0) (steps NMOS 256 (set_bc 0x0055 (nm 0xFFFF))) (poke 0xFFFF [0x10; 0xFE] m0) 0 with
  | Some (c', m, k, l) => bc c' = 0x55 /\ pc c' = 1 /\ k = 13 * 255 + 8
  | None => False
  end.
Proof. vm_compute. repeat split. Qed.
Definition C28_all := (@C28_steps, @C28_complete).
Print Assumptions C28_all.
