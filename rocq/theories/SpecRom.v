(** What runs of the kernel of the example computer are told with (C58). *)
From Coq Require Import ZArith Bool List.
From Verif Require Import Base Parse Cpu Flavours Prog Trace Exec Range Clock RalMemory RalBus SpecRal SpecState SpecIsa IsaLink Steps RomImage.
Import ListNotations.
Open Scope Z_scope.

(** Input, output, acknowledged interrupts and returns from interrupts. *)
Inductive io := IIn (p v : Z) | IOut (p v : Z) | IAck (v : Z) | IReti.
Definition ios1 {WB RB} (e : bev WB RB) : list io :=
  match e with VIn p v _ => [IIn p v] | VOut p v _ _ => [IOut p v] | VAck _ v _ => [IAck v] | VReti _ _ => [IReti] | _ => [] end.
Definition ios {WB RB} (bl : list (bev WB RB)) : list io := flat_map ios1 bl.
(** The answers to "is there an interrupt?". *)
Definition asked {WB RB} (bl : list (bev WB RB)) : list bool := flat_map (fun e => match e with VIrq b => [b] | _ => [] end) bl.
(** Memory holds bytes (the types of the crate). *)
Definition byte_op (o : mop) : Prop :=
  match o with MWrite _ v => 0 <= v < 256 | MInsert x => forall i, 0 <= rb_data x i < 256 | _ => True end.
(** What the kernel sees in memory: its page is there whatever has been fetched last. *)
Definition kview (kb : Z) (h : list mop) (a : Z) : Z := view kernel kb (MFetch 0 :: h) a.

(** ** Characters (ral1243_rom.rb:344-422)

    Output: is the port still busy with a character, and is there another waiting for it? *)
Record outch := mkOut { busy : bool; waiting : option Z }.
Definition put (v : Z) (c : outch) : option (outch * list Z) :=
  match waiting c with
  | Some _ => None
  | None => if busy c then Some (mkOut true (Some v), []) else Some (mkOut true None, [v])
  end.
Definition taken (c : outch) : outch * list Z :=
  match waiting c with Some v => (mkOut (busy c) None, [v]) | None => (mkOut false None, []) end.
(** Input: the character that has been read from the port, and is there another in the port? *)
Record inch := mkIn { have : option Z; more : bool }.

(** The system variables (ral1243_rom.rb:72-90): where the kernel keeps this in its memory. *)
Definition bit_at (m : Z -> Z) (a n : Z) : bool := Z.testbit (m a) n.
Definition out_of (m : Z -> Z) : outch := mkOut (bit_at m 0x2005 3) (if bit_at m 0x2005 2 then Some (m 0x2006) else None).
Definition in_of (m : Z -> Z) : inch := mkIn (if bit_at m 0x2005 1 then Some (m 0x2004) else None) (bit_at m 0x2005 0).
Definition ticks_of (m : Z -> Z) : Z := m 0x2000 + 2 ^ 8 * m 0x2001 + 2 ^ 16 * m 0x2002 + 2 ^ 24 * m 0x2003.
Definition to_b (v : Z) : io := IOut (256 * v + 10) v.
(** Memory is the same but for some addresses. *)
Definition same_but (ex : Z -> Prop) (m m' : Z -> Z) : Prop := forall y, 0 <= y < 0x10000 -> ~ ex y -> m' y = m y.
Definition word_at (m : Z -> Z) (a : Z) : Z := m a + 256 * m (a + 1).
Definition carry {T} (a : arch T) : bool := Z.testbit (aF a) 0.
Definition zero {T} (a : arch T) : bool := Z.testbit (aF a) 6.

(** The processor in [a'] with some of its registers, the rest of what programs use as in [a], interrupts on. *)
Record ready {T} (pc sp bc de hl : Z) (a a' : arch T) : Prop := mkReady {
  rd_pc : aPC a' = pc; rd_sp : aSP a' = sp; rd_bc : aBC a' = bc; rd_de : aDE a' = de; rd_hl : aHL a' = hl;
  rd_ix : aIX a' = aIX a; rd_iy : aIY a' = aIY a; rd_af' : aAF' a' = aAF' a;
  rd_i : aI a' = aI a; rd_im : aIM a' = aIM a; rd_1 : aIFF1 a' = true; rd_2 : aIFF2 a' = true; rd_ei : aEI a' = false; rd_px : aPX a' = None }.
(** Nothing has happened yet, and interrupts are off. *)
Definition off {T} (pc : Z) (a : arch T) (m : Z -> Z) (a' : arch T) (m' : Z -> Z) (o : list io) : Prop :=
  o = [] /\ same_but (fun _ => False) m m' /\ aIFF1 a' = false /\ aPC a' = pc /\ aSP a' = aSP a /\ carry a' = carry a /\ aIX a' = aIX a /\ aIY a' = aIY a /\
  aAF' a' = aAF' a /\ aI a' = aI a /\ aIM a' = aIM a /\ aHALT a' = false /\ aPX a' = None.
(** The registers of the caller are in the other set. *)
Definition aside {T} (bc de hl : Z) (a : arch T) : Prop := aBC' a = bc /\ aDE' a = de /\ aHL' a = hl.
(** A character to the output, for a caller with these registers: done, refused, or waiting in HALT. *)
Definition put_post {T} (pc sp bc de hl : Z) (a : arch T) (m : Z -> Z) (a' : arch T) (m' : Z -> Z) (o : list io) : Prop :=
  aA a' = aA a /\
  match put (aA a) (out_of m) with
  | Some (c, sent) => ready pc sp bc de hl a a' /\ aHALT a' = false /\ zero a' = true /\ out_of m' = c /\ in_of m' = in_of m /\ o = map to_b sent /\
      same_but (fun y => y = 0x2005 \/ y = 0x2006) m m'
  | None => o = [] /\ same_but (fun _ => False) m m' /\
      if carry a then ready pc sp bc de hl a a' /\ aHALT a' = false /\ zero a' = false
      else exists bc' de', ready 0x18C (aSP a) bc' de' 0x2005 a a' /\ aHALT a' = true /\ carry a' = false /\ aBC' a' = bc /\ aDE' a' = de /\ aHL' a' = hl
  end.
(** A character from the input: there is one, there is none, or waiting for it in HALT. *)
Definition get_post {T} (pc sp bc de hl : Z) (a : arch T) (m : Z -> Z) (a' : arch T) (m' : Z -> Z) (o : list io) : Prop :=
  match have (in_of m) with
  | Some v => ready pc sp bc de hl a a' /\ aHALT a' = false /\ zero a' = false /\ aA a' = v /\ out_of m' = out_of m /\
      (if more (in_of m) then exists w, o = [IIn (256 * v + 8) w] /\ in_of m' = mkIn (Some w) false else o = [] /\ in_of m' = mkIn None false) /\
      same_but (fun y => y = 0x2004 \/ y = 0x2005 \/ aSP a - 2 <= y < aSP a) m m'
  | None => o = [] /\ same_but (fun _ => False) m m' /\ aA a' = aA a /\
      if carry a then exists bc' de', ready 0x152 (aSP a) bc' de' 0x2005 a a' /\ aHALT a' = true /\ carry a' = true /\ aBC' a' = bc /\ aDE' a' = de /\ aHL' a' = hl
      else ready pc sp bc de hl a a' /\ aHALT a' = false /\ zero a' = true
  end.
(** What the service of the interrupt with the vector [v] does: the clock, nothing, a character comes, a character has gone. *)
Definition serves {T} (v : Z) (a : arch T) (m m' : Z -> Z) (o : list io) : Prop :=
  same_but (fun y => 0x2000 <= y <= 0x2005 \/ aSP a - 6 <= y < aSP a) m m' /\
  ticks_of m' = (if v =? 0 then (ticks_of m + 1) mod 2 ^ 32 else ticks_of m) /\
  (if v =? 10 then (out_of m', o) = (fst (taken (out_of m)), map to_b (snd (taken (out_of m)))) else out_of m' = out_of m) /\
  (if v =? 8 then match have (in_of m) with
                  | None => exists b, o = [IIn (256 * aA a + 8) b] /\ in_of m' = mkIn (Some b) (more (in_of m))
                  | Some w => o = [] /\ in_of m' = mkIn (Some w) true
                  end
   else in_of m' = in_of m) /\
  (v = 8 \/ v = 10 \/ o = []).
Definition vectors : list Z := [0; 2; 4; 6; 8; 10].
(** Where the program goes on. *)
Definition resume {T} (a : arch T) : Z := if aHALT a then (aPC a + 1) mod 0x10000 else aPC a.
Definition restored {T} (a a' : arch T) : Prop :=
  ready (resume a) (aSP a) (aBC a) (aDE a) (aHL a) a a' /\ aA a' = aA a /\ aF a' = aF a /\ aBC' a' = aBC' a /\ aDE' a' = aDE' a /\ aHL' a' = aHL' a /\ aHALT a' = false.
(** The interrupts of the port, up to where the next interrupt may come: A and F are still on the stack. *)
Definition nearly {T} (v : Z) (a a' : arch T) (m' : Z -> Z) : Prop :=
  ready (if v =? 8 then 0x137 else 0x171) (aSP a - 4) (aBC a) (aDE a) (aHL a) a a' /\ aBC' a' = aBC' a /\ aDE' a' = aDE' a /\ aHL' a' = aHL' a /\ aHALT a' = false /\
  m' (aSP a - 3) = aA a /\ m' (aSP a - 4) = aF a /\ word_at m' (aSP a - 2) = resume a.

(** After an interrupt was accepted: served and back in the program, or, for the port, as far as the next interrupt may come. *)
Definition irq_post {T} (a : arch T) (m : Z -> Z) (a' : arch T) (m' : Z -> Z) (o : list io) : Prop :=
  exists v, (In v vectors -> exists o', o = IAck v :: o' ++ [IReti] /\ restored a a' /\ serves v a m m' o') /\ (~ In v vectors -> o = [IAck v]).
Definition irq_first {T} (a : arch T) (m : Z -> Z) (a' : arch T) (m' : Z -> Z) (o : list io) : Prop :=
  exists v, (In v vectors -> exists o', serves v a m m' o' /\
    (if (v =? 8) || (v =? 10) then o = IAck v :: o' /\ nearly v a a' m' else o = IAck v :: o' ++ [IReti] /\ restored a a')) /\ (~ In v vectors -> o = [IAck v]).

(** ** Runs of the machine: the memory after the operations [l0] is [m] *)
Definition kernel_mem (kb : Z) (l0 : list mop) (m : ralmem) : Prop :=
  exists m0 r, 0 <= kb /\ mem_new kernel kb = Some m0 /\ all_allowed [] l0 /\ mem_run l0 m0 = Some (m, r) /\ Forall byte_op l0.
Section Ends.
Context {Q T D : Type}.
Variables (FL : Flavour Q) (absq : Q -> T) (dv : dev D) (limit kb : Z) (l0 : list mop) (m : ralmem) (c : cpu Q) (d : D) (k : tclock).
(** After some number of instructions. *)
Definition ends (Out : bus D -> list bool -> cpu Q -> list (ev Z unit unit) -> Prop) : Prop :=
  exists n c' b' k' l, runl (ral_host 255 124 dv limit) (steps FL n c) (Some (m, d)) k = Some (c', b', k', l) /\ Out b' (asked (buses l)) c' l.
Definition at_end (Post : arch T -> (Z -> Z) -> list io -> Prop) (c' : cpu Q) (l : list (ev Z unit unit)) : Prop :=
  exists m', (forall y, 0 <= y < 0x10000 -> m' y = kview kb (history l (rev l0)) y) /\ Post (abs absq c') m' (ios (buses l)).
(** It comes to [Post], unless an interrupt is accepted before or a device panics. *)
Definition comes (Post : arch T -> (Z -> Z) -> list io -> Prop) : Prop :=
  ends (fun b' q c' l => b' = None \/ In true q \/ at_end Post c' l).
(** It comes to [Post] with no chance for an interrupt before. *)
Definition comes_alone (Post : arch T -> (Z -> Z) -> list io -> Prop) : Prop :=
  ends (fun b' q c' l => b' = None \/ q = [] /\ at_end Post c' l).
(** If an interrupt is accepted now, it comes to [Post], unless another is accepted before. *)
Definition answered (Post : arch T -> (Z -> Z) -> list io -> Prop) : Prop :=
  ends (fun b' q c' l => b' = None \/ hd_error q = Some false \/ hd_error q = Some true /\ (In true (tl q) \/ at_end Post c' l)).
(** The same with no chance for another. *)
Definition answered_alone (Post : arch T -> (Z -> Z) -> list io -> Prop) : Prop :=
  ends (fun b' q c' l => b' = None \/ hd_error q = Some false \/ q = [true] /\ at_end Post c' l).
End Ends.

(** ** The order of characters: accepted by [put], given to the port, taken from the port. *)
Inductive portev := Given (v : Z) | Gone.
Inductive outs : outch -> list Z -> list portev -> outch -> Prop :=
| outs_end c : outs c [] [] c
| outs_put c v c1 s accepted tr c' : put v c = Some (c1, s) -> outs c1 accepted tr c' -> outs c (v :: accepted) (map Given s ++ tr) c'
| outs_taken c c1 s accepted tr c' : taken c = (c1, s) -> outs c1 accepted tr c' -> outs c accepted (Gone :: map Given s ++ tr) c'.
Definition given (tr : list portev) : list Z := flat_map (fun e => match e with Given v => [v] | Gone => [] end) tr.
Definition pending (c : outch) : list Z := match waiting c with Some v => [v] | None => [] end.
(** Nothing is given to the port before the last character has gone. *)
Fixpoint spaced (full : bool) (tr : list portev) : Prop :=
  match tr with [] => True | Given _ :: tr => full = false /\ spaced true tr | Gone :: tr => spaced false tr end.
