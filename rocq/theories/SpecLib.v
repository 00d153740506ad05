(** What is asked of the library of the example computer's kernel (C61): examples/ral1243/rom/ral1243_rom.rb:245-258, 424-682. *)
From Coq Require Import ZArith Bool List.
From Verif Require Import Base Parse Cpu Flavours Prog Trace Exec Range Clock RalMemory RalBus SpecRal SpecState SpecIsa IsaLink Steps RomImage SpecRom.
Import ListNotations.
Open Scope Z_scope.

(** ** Numbers as the kernel prints them

    Zeros in front are replaced by the padding character, or left out if that is 0; the last digit is always there. *)
Fixpoint show (pad : Z) (ds : list Z) : list Z :=
  match ds with
  | [] => []
  | [d] => [48 + d]
  | 0 :: ds => (if pad =? 0 then [] else [pad]) ++ show pad ds
  | _ => map (Z.add 48) ds
  end.
Definition decimal8 (pad n : Z) : list Z := show pad [n / 100; n / 10 mod 10; n mod 10].
Definition decimal16 (pad n : Z) : list Z := show pad [n / 10000; n / 1000 mod 10; n / 100 mod 10; n / 10 mod 10; n mod 10].
(** The characters in memory before the first that is [tok]. *)
Definition upto_tok (m : Z -> Z) (a tok : Z) (n : nat) : Prop :=
  m (a + Z.of_nat n) = tok /\ forall i, (i < n)%nat -> m (a + Z.of_nat i) <> tok.
Definition chars (m : Z -> Z) (a : Z) (n : nat) : list Z := map (fun i => m (a + Z.of_nat i)) (seq 0 n).

(** A count in a byte: 0 is 256. *)
Definition times (b : Z) : nat := if b =? 0 then 256%nat else Z.to_nat b.

(** ** Printing

    The system variables and [n] bytes below the stack belong to the kernel and its interrupts. *)
Definition kernels (n sp y : Z) : Prop := 0x2000 <= y <= 0x2006 \/ sp - n <= y < sp.
(** [a'], [m']: a character that was printed at [a], [m] (a call of RST 10h that may wait) is done. *)
Definition printed {T} (a : arch T) (m : Z -> Z) (a' : arch T) (m' : Z -> Z) : Prop :=
  ready (word_at m (aSP a)) (aSP a + 2) (aBC a) (aDE a) (aHL a) a a' /\ aHALT a' = false /\ aA a' = aA a /\ zero a' = true /\
  same_but (kernels 64 (aSP a)) m m'.
Section Says.
Context {Q T : Type}.
Variables (FL : Flavour Q) (absq : Q -> T) (kb : Z).
(** The machine calls RST 10h, willing to wait, for these characters one after the other, whatever happens in between, and then comes
    to [Fin]; unless an interrupt is accepted on the way or a device panics. *)
Fixpoint says (cs : list Z) (Fin : arch T -> (Z -> Z) -> Prop) (l0 : list mop) (mm : ralmem) (c : cpu Q) : Prop :=
  forall D (dv : dev D) limit d k, comes FL absq dv limit kb l0 mm c d k (fun a m o => o = [] /\
    match cs with
    | [] => Fin a m
    | v :: cs => aPC a = 0x10 /\ aA a = v /\ carry a = false /\ aHALT a = false /\
        forall l1 mm1 c1, kernel_mem kb l1 mm1 -> wf c1 -> printed a m (abs absq c1) (kview kb (rev l1)) -> says cs Fin l1 mm1 c1
    end).
End Says.
(** Back at the address on the stack, with other memory as it was. *)
Definition back {T} (a : arch T) (m : Z -> Z) (a' : arch T) (m' : Z -> Z) : Prop :=
  aPC a' = word_at m (aSP a) /\ aSP a' = aSP a + 2 /\ aIX a' = aIX a /\ aIY a' = aIY a /\ aAF' a' = aAF' a /\ aHALT a' = false /\ aPX a' = None /\
  same_but (kernels 80 (aSP a)) m m'.

(** ** Looking and waiting

    Nothing was sent, read or written. *)
Definition still (m m' : Z -> Z) (o : list io) : Prop := o = [] /\ same_but (fun _ => False) m m'.
Section Posts.
Context {T : Type}.
Variables (a : arch T) (m : Z -> Z) (a' : arch T) (m' : Z -> Z) (o : list io).
(** RET to the caller, with these registers. *)
Definition returns (bc de hl : Z) : Prop := ready (word_at m (aSP a)) (aSP a + 2) bc de hl a a' /\ aHALT a' = false.
(** At the RET, interrupts on. *)
Definition at_ret (pc bc de hl : Z) : Prop := ready pc (aSP a) bc de hl a a' /\ aHALT a' = false.
(** get_frames_counter *)
Definition frames_post : Prop := still m m' o /\ returns (aBC a) (ticks_of m mod 2 ^ 16) (ticks_of m / 2 ^ 16).
(** input_peek, for the registers of the caller, [R] being where it ends: a character, none, or waiting in HALT. *)
Definition peek_post (R : Z -> Z -> Z -> Prop) (bc de hl : Z) : Prop := still m m' o /\
  match have (in_of m) with
  | Some v => R bc de hl /\ zero a' = false /\ aA a' = v
  | None => if carry a then (exists bc' de', ready 0x1C2 (aSP a) bc' de' 0x2005 a a') /\ aHALT a' = true /\ carry a' = true /\ aside bc de hl a'
      else R bc de hl /\ zero a' = true
  end.
(** output_flush: no character waits for its turn, or waiting in HALT. *)
Definition flush_post : Prop := still m m' o /\
  match waiting (out_of m) with
  | None => returns (aBC a) (aDE a) (aHL a)
  | Some _ => ready 0x1EC (aSP a) (aBC a) (aDE a) (aHL a) a a' /\ aHALT a' = true
  end.
(** wait_ticks: in HALT, with the lowest byte of the clock, until so many changes of it have been seen. *)
Definition in_wait (bc de hl : Z) : Prop :=
  (exists bc' de', ready 0x19C (aSP a) bc' de' 0x2000 a a') /\ aHALT a' = true /\ aA a' = m 0x2000 /\ aside bc de hl a'.
Definition wait_post (bc de hl : Z) : Prop := still m m' o /\ in_wait bc de hl.
Definition wait_round (R : Z -> Z -> Z -> Prop) : Prop := still m m' o /\
  if m 0x2000 =? aA a then in_wait (aBC' a) (aDE' a) (aHL' a)
  else if aBC' a =? 1 then R 0 (aDE' a) (aHL' a) else in_wait ((aBC' a - 1) mod 2 ^ 16) (aDE' a) (aHL' a).
(** input_wait_timeout: the same, but a character ends it. *)
Definition char_or_wait (R : Z -> Z -> Z -> Prop) (bc de hl : Z) : Prop :=
  match have (in_of m) with
  | Some _ => R bc de hl /\ zero a' = false
  | None => (exists bc' de', ready 0x1D3 (aSP a) bc' de' 0x2000 a a') /\ aHALT a' = true /\ aA a' = m 0x2000 /\ aside bc de hl a'
  end.
Definition timeout_post (R : Z -> Z -> Z -> Prop) (bc de hl : Z) : Prop := still m m' o /\ char_or_wait R bc de hl.
Definition timeout_round (R : Z -> Z -> Z -> Prop) : Prop := still m m' o /\
  if m 0x2000 =? aA a then char_or_wait R (aBC' a) (aDE' a) (aHL' a)
  else if aBC' a =? 1 then R 0 (aDE' a) (aHL' a) /\ zero a' = true else char_or_wait R ((aBC' a - 1) mod 2 ^ 16) (aDE' a) (aHL' a).
(** move_int_vectors: the table at 0100h is now in the page in H, and I is that page. *)
Definition move_post : Prop := let h := aHL a / 256 in o = [] /\
  (forall i, 0 <= i < 12 -> m' (256 * h + i) = m (0x100 + i)) /\ same_but (fun y => 256 * h <= y < 256 * h + 12) m m' /\
  aPC a' = word_at m (aSP a) /\ aSP a' = aSP a + 2 /\ aIX a' = aIX a /\ aIY a' = aIY a /\ aAF' a' = aAF' a /\ aI a' = h /\ aIM a' = aIM a /\
  aIFF1 a' = aIFF1 a /\ aIFF2 a' = aIFF2 a /\ aHALT a' = false /\ aEI a' = false /\ aPX a' = None.
(** input_prune as it is: with a character to prune it gives back the other set of registers, and the caller's HL is lost. *)
Definition prune_post : Prop := in_of m' = mkIn None false /\ zero a' = true /\ same_but (fun y => y = 0x2004 \/ y = 0x2005 \/ aSP a - 4 <= y < aSP a) m m' /\
  match have (in_of m), more (in_of m) with
  | None, _ => o = [] /\ returns (aBC a) (aDE a) (aHL a)
  | Some v, false => o = [] /\ returns (aBC' a) (aDE' a) 0x2004 /\ aside (aBC a) (aDE a) 0x2005 a'
  | Some v, true => (exists w, o = [IIn (256 * v + 8) w]) /\ returns (aBC a) (aDE a) 0x2004 /\ aside (aBC' a) (aDE' a) 0x2005 a'
  end.
End Posts.

(** At RST 28h with the number of a routine in A, the address to return to on the stack in the memory of the user. *)
Definition called {T} (n : Z) (a : arch T) : Prop := aPC a = 0x28 /\ aA a = n /\ aPX a = None /\ aHALT a = false /\ 0x4000 <= aSP a <= 0xFFFD.
(** Back from the interrupt that ended a HALT of the library. *)
Definition woken {T} (pc hl : Z) (a : arch T) : Prop := aPC a = pc /\ aHL a = hl /\ aPX a = None /\ aHALT a = false /\ 0x4000 <= aSP a <= 0xFFFD.
(** Room on the stack for [n] bytes below the stack pointer. *)
Definition room {T} (n kb : Z) (a : arch T) : Prop := 0x4000 + n <= aSP a <= 0x4000 + kb * 1024.
(** I points to a page of the user's memory that holds the kernel's table, where a push does not reach it. *)
Definition moved {T} (a : arch T) (m : Z -> Z) : Prop := 0x40 <= aI a < 0xFF /\ (256 * aI a + 12 <= aSP a - 2 \/ aSP a <= 256 * aI a) /\
  forall i, 0 <= i < 12 -> m (256 * aI a + i) = m (0x100 + i).
