(** Published instruction times, as tables over op-codes (Zilog Z80 CPU manual; undocumented op-codes from "The
    Undocumented Z80 Documented").  Independent of [SpecIsa]'s trees: only plain op-code numbers. *)
From Coq Require Import ZArith Bool List.
From Verif Require Import Parse SpecAlu SpecState SpecIsa.
Import ListNotations.
Open Scope Z_scope.

Definition at_ (l : list Z) (i : Z) : Z := nth (Z.to_nat i) l 0.
(** T-states of unprefixed op-codes; of conditional ones when the condition does not hold.  CB, ED: of the
    prefix byte alone (the sub-op-code's time is below); DD, FD: a prefix byte. *)
Definition t_main : list Z :=
 (*  0   1   2   3   4   5   6   7   8   9   A   B   C   D   E   F *)
  [  4; 10;  7;  6;  4;  4;  7;  4;  4; 11;  7;  6;  4;  4;  7;  4;
     8; 10;  7;  6;  4;  4;  7;  4; 12; 11;  7;  6;  4;  4;  7;  4;
     7; 10; 16;  6;  4;  4;  7;  4;  7; 11; 16;  6;  4;  4;  7;  4;
     7; 10; 13;  6; 11; 11; 10;  4;  7; 11; 13;  6;  4;  4;  7;  4;
     4;  4;  4;  4;  4;  4;  7;  4;  4;  4;  4;  4;  4;  4;  7;  4;
     4;  4;  4;  4;  4;  4;  7;  4;  4;  4;  4;  4;  4;  4;  7;  4;
     4;  4;  4;  4;  4;  4;  7;  4;  4;  4;  4;  4;  4;  4;  7;  4;
     7;  7;  7;  7;  7;  7;  4;  7;  4;  4;  4;  4;  4;  4;  7;  4;
     4;  4;  4;  4;  4;  4;  7;  4;  4;  4;  4;  4;  4;  4;  7;  4;
     4;  4;  4;  4;  4;  4;  7;  4;  4;  4;  4;  4;  4;  4;  7;  4;
     4;  4;  4;  4;  4;  4;  7;  4;  4;  4;  4;  4;  4;  4;  7;  4;
     4;  4;  4;  4;  4;  4;  7;  4;  4;  4;  4;  4;  4;  4;  7;  4;
     5; 10; 10; 10; 10; 11;  7; 11;  5; 10; 10;  4; 10; 17;  7; 11;
     5; 10; 10; 11; 10; 11;  7; 11;  5;  4; 10; 11; 10;  4;  7; 11;
     5; 10; 10; 19; 10; 11;  7; 11;  5;  4; 10;  4; 10;  4;  7; 11;
     5; 10; 10;  4; 10; 11;  7; 11;  5;  6; 10;  4; 10;  4;  7; 11 ].
(** The same after a DD or FD prefix (whose own 4 T-states are not included); CB: the op-code byte and the
    displacement byte alone. *)
Definition t_index : list Z :=
 (*  0   1   2   3   4   5   6   7   8   9   A   B   C   D   E   F *)
  [  4; 10;  7;  6;  4;  4;  7;  4;  4; 11;  7;  6;  4;  4;  7;  4;
     8; 10;  7;  6;  4;  4;  7;  4; 12; 11;  7;  6;  4;  4;  7;  4;
     7; 10; 16;  6;  4;  4;  7;  4;  7; 11; 16;  6;  4;  4;  7;  4;
     7; 10; 13;  6; 19; 19; 15;  4;  7; 11; 13;  6;  4;  4;  7;  4;
     4;  4;  4;  4;  4;  4; 15;  4;  4;  4;  4;  4;  4;  4; 15;  4;
     4;  4;  4;  4;  4;  4; 15;  4;  4;  4;  4;  4;  4;  4; 15;  4;
     4;  4;  4;  4;  4;  4; 15;  4;  4;  4;  4;  4;  4;  4; 15;  4;
    15; 15; 15; 15; 15; 15;  4; 15;  4;  4;  4;  4;  4;  4; 15;  4;
     4;  4;  4;  4;  4;  4; 15;  4;  4;  4;  4;  4;  4;  4; 15;  4;
     4;  4;  4;  4;  4;  4; 15;  4;  4;  4;  4;  4;  4;  4; 15;  4;
     4;  4;  4;  4;  4;  4; 15;  4;  4;  4;  4;  4;  4;  4; 15;  4;
     4;  4;  4;  4;  4;  4; 15;  4;  4;  4;  4;  4;  4;  4; 15;  4;
     5; 10; 10; 10; 10; 11;  7; 11;  5; 10; 10;  7; 10; 17;  7; 11;
     5; 10; 10; 11; 10; 11;  7; 11;  5;  4; 10; 11; 10;  4;  7; 11;
     5; 10; 10; 19; 10; 11;  7; 11;  5;  4; 10;  4; 10;  4;  7; 11;
     5; 10; 10;  4; 10; 11;  7; 11;  5;  6; 10;  4; 10;  4;  7; 11 ].
(** Sub-op-codes after CB: 8 in all for a register, 15 for (HL), 12 for BIT b,(HL). *)
Definition t_cb (c : Z) : Z :=
  if c mod 8 =? 6 then (if c / 64 =? 1 then 8 else 11) else 4.
(** After DDCB/FDCB and the displacement: 23 in all, BIT 20. *)
Definition t_icb (c : Z) : Z := if c / 64 =? 1 then 9 else 12.
(** Sub-op-codes after ED, 0x40-0x7F. *)
Definition t_ed4 : list Z :=
 (*  0   1   2   3   4   5   6   7   8   9   A   B   C   D   E   F *)
  [  8;  8; 11; 16;  4; 10;  4;  5;  8;  8; 11; 16;  4; 10;  4;  5;
     8;  8; 11; 16;  4; 10;  4;  5;  8;  8; 11; 16;  4; 10;  4;  5;
     8;  8; 11; 16;  4; 10;  4; 14;  8;  8; 11; 16;  4; 10;  4; 14;
     8;  8; 11; 16;  4; 10;  4;  4;  8;  8; 11; 16;  4; 10;  4;  4 ].
Definition t_ed (c : Z) : Z :=
  if c / 64 =? 1 then at_ t_ed4 (c - 0x40)
  else if existsb (Z.eqb c) [0xA0; 0xA1; 0xA2; 0xA3; 0xA8; 0xA9; 0xAA; 0xAB;
                             0xB0; 0xB1; 0xB2; 0xB3; 0xB8; 0xB9; 0xBA; 0xBB] then 12
  else 4.

(** Extra T-states: condition [y] = bits 5-3 of the op-code on flags [f]. *)
Definition cond (y f : Z) : bool :=
  let b := match y / 2 with 0 => Zf f | 1 => Cf f | 2 => Pf f | _ => Sf f end in
  if y mod 2 =? 0 then negb b else b.
(** JR cc and DJNZ 5, RET cc 6, CALL cc 7 more when the branch is taken. *)
Definition t_taken (c f b : Z) : Z :=
  let y := (c / 8) mod 8 in
  if c =? 0x10 then (if b =? 1 then 0 else 5)
  else if existsb (Z.eqb c) [0x20; 0x28; 0x30; 0x38] then (if cond (y - 4) f then 5 else 0)
  else if (c / 64 =? 3) && (c mod 8 =? 0) then (if cond y f then 6 else 0)
  else if (c / 64 =? 3) && (c mod 8 =? 4) then (if cond y f then 7 else 0)
  else 0.
(** The repeating block instructions 5 more when they repeat; [v]: the byte read by CPIR, CPDR. *)
Definition t_repeat (c acc bc v : Z) : Z :=
  let yes := if existsb (Z.eqb c) [0xB0; 0xB8] then negb (bc =? 1)
             else if existsb (Z.eqb c) [0xB1; 0xB9] then negb (bc =? 1) && negb (acc =? v)
             else if existsb (Z.eqb c) [0xB2; 0xB3; 0xBA; 0xBB] then negb (bc / 256 =? 1)
             else false in
  if yes then 5 else 0.

(** Documented time of op-code [c] under prefix [px] in state [a], on the bus data [bl] read after the
    op-code. *)
Definition documented {T WB RB} (px : option Prefix) (c : Z) (bl : list (bev WB RB)) (a : arch T) : Z :=
  match px with
  | None =>
      if c =? 0xCB then match bl with VOp _ _ c2 :: _ => 4 + t_cb c2 | _ => 0 end
      else if c =? 0xED then
        match bl with VOp _ _ c2 :: bl =>
          4 + t_ed c2 + t_repeat c2 (aA a) (aBC a) (match bl with VRd _ v :: _ => v | _ => 0 end) | _ => 0 end
      else at_ t_main c + t_taken c (aF a) (aBC a / 256)
  | Some _ =>
      if c =? 0xCB then match bl with _ :: VRd _ c2 :: _ => 7 + t_icb c2 | _ => 0 end
      else if c =? 0xED then
        match bl with VOp _ _ c2 :: bl =>
          4 + t_ed c2 + t_repeat c2 (aA a) (aBC a) (match bl with VRd _ v :: _ => v | _ => 0 end) | _ => 0 end
      else at_ t_index c + t_taken c (aF a) (aBC a / 256)
  end.
(** Wait states requested by the devices. *)
Definition wait_of {WB RB} (e : bev WB RB) : Z :=
  match e with VIn _ _ (Some n) | VOut _ _ _ (Some n) | VAck _ _ (Some n) => n | _ => 0 end.
Definition sum (l : list Z) : Z := fold_right Z.add 0 l.
Definition waits {WB RB} (bl : list (bev WB RB)) : Z := sum (map wait_of bl).
Definition tsum (cl : list tev) : Z := sum (map tstates cl).
(** What the memory and the devices supply are bytes. *)
Definition isbyte (x : Z) : Prop := 0 <= x < 256.
Definition data_byte {WB RB} (e : bev WB RB) : Prop :=
  match e with VOp _ _ v | VRd _ v | VIn _ v _ | VAck _ v _ => isbyte v | _ => True end.
(** Documented time of one step of the processor: an accepted interrupt takes 13 (mode 1), 19 (mode 2) or 2
    more than the supplied instruction (mode 0); a halted cycle 4. *)
Definition int_time {T WB RB} (a : arch T) (bl : list (bev WB RB)) : Z :=
  match aIM a with
  | Mode0 => 2 + match bl with VAck _ v _ :: bl => documented (aPX a) v bl a | _ => 0 end
  | Mode1 => 13 | Mode2 => 19
  end.
Definition step_time {T WB RB} (a : arch T) (bl : list (bev WB RB)) : Z :=
  let go bl := if aHALT a then 4 else match bl with VOp _ _ c :: bl => documented (aPX a) c bl a | _ => 0 end in
  match bl with VIrq true :: bl => int_time a bl | VIrq false :: bl => go bl | _ => go bl end.
