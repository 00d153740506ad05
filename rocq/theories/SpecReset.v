(** What is asked of the reset of the example computer, of its return to the menu and of its non-maskable interrupt (C62):
    examples/ral1243/rom/ral1243_rom.rb:97-148, 210-215, 268-307, 325, 701-715. *)
From Coq Require Import ZArith Bool List.
From Verif Require Import Base Parse SpecState RomImage SpecRom SpecLib.
Import ListNotations.
Open Scope Z_scope.

(** The bytes for the counters and the ports: OUT (n),A has A in the upper half of the address. *)
Definition outs_of (l : list (Z * Z)) : list io := map (fun '(p, v) => IOut (256 * v + p) v) l.
(** Counter 0 counts to 100 with interrupts, vector 0; the others are off. Port A is input with the vector 8, port B output with 10. *)
Definition set_up : list io := outs_of
  [(4, 0); (4, 0xD7); (4, 100); (5, 3); (6, 3); (7, 3); (9, 0x4F); (9, 8); (9, 0x83); (11, 0x0F); (11, 10); (11, 0x83)].
Section Posts.
Context {T : Type}.
Variables (a : arch T) (m : Z -> Z) (a' : arch T) (m' : Z -> Z) (o : list io).
(** After the reset: the kernel's memory is clear but for an address that was on the stack, and interrupts are about to be on. *)
Definition reset_post : Prop := o = IOut 124 0 :: set_up /\ (forall y, 0x2000 <= y < 0x3FFE -> m' y = 0) /\ same_but (fun y => 0x2000 <= y < 0x4000) m m' /\
  aPC a' = 0x45B /\ aSP a' = 0x4000 /\ aI a' = 1 /\ aIM a' = Mode2 /\ aIFF1 a' = true /\ aIFF2 a' = true /\ aEI a' = true /\ aHALT a' = false /\ aPX a' = None.
(** The last two bytes of memory. *)
Definition at_top (y : Z) : Prop := word_at m 0x2008 - 1 <= y <= word_at m 0x2008.
(** At the menu: everything set up again, both chips told that interrupts are over, no characters; the stack is at the end of memory. *)
Definition menu_post (flags : Z) : Prop := o = set_up ++ [IReti; IReti] /\ out_of m' = mkOut false None /\ in_of m' = mkIn None false /\ m' 0x2007 = flags /\
  aPC a' = 0x557 /\ aSP a' = (word_at m 0x2008 + 1) mod 0x10000 /\ aI a' = 1 /\ aIM a' = Mode2 /\ aIFF1 a' = true /\ aIFF2 a' = true /\ aEI a' = false /\ aHALT a' = false /\ aPX a' = None.
(** RST 38h: back from the routine that used it, if that was a test of a cartridge. *)
Definition abort_post : Prop := if bit_at m 0x2007 0
  then o = [] /\ same_but (fun _ => False) m m' /\ zero a' = false /\ aPC a' = word_at m (aSP a + 2) /\ aSP a' = (aSP a + 4) mod 0x10000 /\
    aBC a' = aBC a /\ aDE a' = aDE a /\ aHL a' = aHL a /\ aIX a' = aIX a /\ aIY a' = aIY a /\ aHALT a' = false /\ aPX a' = None /\ aIFF1 a' = aIFF1 a /\ aIFF2 a' = aIFF2 a
  else menu_post (m 0x2007) /\ same_but (fun y => y = 0x2005 \/ at_top y) m m'.
(** The non-maskable interrupt: to the menu if that is allowed, or nothing at all. *)
Definition nmi_post : Prop := if bit_at m 0x2007 1
  then menu_post (m 0x2007 - (if bit_at m 0x2007 0 then 1 else 0)) /\
    same_but (fun y => y = 0x2005 \/ y = 0x2007 \/ aSP a - 4 <= y < aSP a \/ at_top y) m m'
  else o = [] /\ same_but (fun y => aSP a - 4 <= y < aSP a) m m' /\ aPC a' = word_at m (aSP a) /\ aSP a' = (aSP a + 2) mod 0x10000 /\
    aA a' = aA a /\ aF a' = aF a /\ aBC a' = aBC a /\ aDE a' = aDE a /\ aHL a' = aHL a /\ aIX a' = aIX a /\ aIY a' = aIY a /\
    aAF' a' = aAF' a /\ aBC' a' = aBC' a /\ aDE' a' = aDE' a /\ aHL' a' = aHL' a /\ aI a' = aI a /\ aIM a' = aIM a /\
    aIFF1 a' = aIFF2 a /\ aIFF2 a' = aIFF2 a /\ aHALT a' = false /\ aPX a' = None.
(** The kernel knows the end of memory. *)
Definition knows_top (kb : Z) : Prop := 0x4001 <= word_at m 0x2008 < 0x4000 + kb * 1024.
End Posts.
