(** Runs through the parts of the kernel that no interrupt can come into. *)
From Coq Require Import ZArith Bool List Lia.
From Verif Require Import Base Parse Cpu Flavours Prog Trace Exec Range Clock RalMemory RalBus SpecRal SpecState SpecIsa IsaLink IsaRun Steps RomImage SpecRom RomHoare RomAsm RomIo RomRun SpecLib RomLib RomLib2 RomLib3 RomLib4.
Import ListNotations.
Open Scope Z_scope.

Section Runs.
Context {Q T D : Type}.
Variable FL : Flavour Q.
Variable ch : SpecIsa.chip T.
Variable absq : Q -> T.
Context (OK : chip_ok FL ch absq).
Variables (dv : dev D) (limit kb : Z) (l0 : list mop) (mm : ralmem) (c : cpu Q) (d : D) (k : tclock).
Hypothesis (KM : kernel_mem kb l0 mm) (W : wf c).
Notation a := (abs absq c).
Notation m := (kview kb (rev l0)).
Notation runs := (comes FL absq dv limit kb l0 mm c d k).
Notation alone := (comes_alone FL absq dv limit kb l0 mm c d k).
Hypothesis (PX : aPX a = None) (NH : aHALT a = false).
Ltac facts := assert (HT := run_top kb l0 mm KM); assert (C := run_code kb l0); assert (Y := run_bytes kb l0 mm KM); 
  assert (WA := run_A absq c W); assert (WB' := wf_bc_alt c W).
Lemma put_off_runs : aPC a = 0x10 -> runs (fun a' m' o => off 0x179 a m a' m' o /\ aA a' = aA a /\ aHL a' = 0x2005 /\ aside (aBC a) (aDE a) (aHL a) a').
Proof. facts. intros. apply (comes_of FL ch absq OK); try assumption. apply put_off; assumption. Qed.
Lemma put_again_off_runs : aPC a = 0x18D -> aHL a = 0x2005 -> runs (fun a' m' o => off 0x179 a m a' m' o /\ aA a' = aA a /\ aHL a' = 0x2005 /\ aside (aBC' a) (aDE' a) (aHL' a) a').
Proof. facts. intros. apply (comes_of FL ch absq OK); try assumption. apply put_again_off; assumption. Qed.
Lemma get_off_runs : aPC a = 0x08 -> runs (fun a' m' o => off 0x13F a m a' m' o /\ aA a' = aA a /\ aHL a' = 0x2005 /\ aside (aBC a) (aDE a) (aHL a) a').
Proof. facts. intros. apply (comes_of FL ch absq OK); try assumption. apply get_off; assumption. Qed.
Lemma get_again_off_runs : aPC a = 0x153 -> aHL a = 0x2005 -> runs (fun a' m' o => off 0x13F a m a' m' o /\ aA a' = aA a /\ aHL a' = 0x2005 /\ aside (aBC' a) (aDE' a) (aHL' a) a').
Proof. facts. intros. apply (comes_of FL ch absq OK); try assumption. apply get_again_off; assumption. Qed.
Lemma frames_off_runs : aPC a = 0x28 -> aA a = 26 -> runs (fun a' m' o => off 0x2C3 a m a' m' o /\ aBC a' = aBC a /\ aDE a' = aDE a /\ aHL a' = aHL a).
Proof. facts. intros. apply (comes_of FL ch absq OK); try assumption. apply frames_off; assumption. Qed.
Lemma flush_off_runs : aPC a = 0x28 -> aA a = 8 -> runs (fun a' m' o => off 0x1E4 a m a' m' o /\ aBC a' = aBC a /\ aDE a' = aDE a /\ aHL a' = aHL a).
Proof. facts. intros. apply (comes_of FL ch absq OK); try assumption. apply flush_off; assumption. Qed.
Lemma flush_again_off_runs : aPC a = 0x1ED -> runs (fun a' m' o => off 0x1E4 a m a' m' o /\ aBC a' = aBC a /\ aDE a' = aDE a /\ aHL a' = aHL a).
Proof. facts. intros. apply (comes_of FL ch absq OK); try assumption. apply flush_again_off; assumption. Qed.
Lemma lib_off_runs n t pc p : In (n, t, pc, p) [(4, 0x1B2, 0x1B6, 0x2005); (0, 0x196, 0x19A, 0x2000); (6, 0x1C6, 0x1CA, 0x2000)] ->
  aPC a = 0x28 -> aA a = n -> runs (fun a' m' o => off pc a m a' m' o /\ aHL a' = p /\ aside (aBC a) (aDE a) (aHL a) a').
Proof. facts. intros. apply (comes_of FL ch absq OK); try assumption. apply (lib_off ch _ HT m a C PX NH WA WB' n t); assumption. Qed.
Lemma lib_again_off_runs t pc p : In (t, pc, p) [(0x1C3, 0x1B6, 0x2005); (0x19D, 0x19E, 0x2000); (0x1D4, 0x1D5, 0x2000)] ->
  aPC a = t -> aHL a = p -> runs (fun a' m' o => off pc a m a' m' o /\ aA a' = aA a /\ aHL a' = p /\ aside (aBC' a) (aDE' a) (aHL' a) a').
Proof. facts. intros. apply (comes_of FL ch absq OK); try assumption. apply (lib_again_off ch _ m a C PX NH t); assumption. Qed.
Lemma peek_alone_runs : aIFF1 a = false -> aPC a = 0x1B6 -> aHL a = 0x2005 -> alone (fun a' m' o => peek_post a m a' m' o (at_ret a a' 0x1BE) (aBC' a) (aDE' a) (aHL' a)).
Proof. facts. intros. apply (alone_of FL ch absq OK); try assumption. apply peek_alone; assumption. Qed.
Lemma wait_alone_runs : aIFF1 a = false -> aPC a = 0x19A -> aHL a = 0x2000 -> alone (fun a' m' o => wait_post a m a' m' o (aBC' a) (aDE' a) (aHL' a)).
Proof. facts. intros. apply (alone_of FL ch absq OK); try assumption. apply wait_alone; assumption. Qed.
Lemma wait_again_alone_runs : aIFF1 a = false -> aPC a = 0x19E -> aHL a = 0x2000 -> alone (fun a' m' o => wait_round a m a' m' o (at_ret a a' 0x1AA)).
Proof. facts. intros. apply (alone_of FL ch absq OK); try assumption. apply wait_again_alone; assumption. Qed.
Lemma timeout_alone_runs : aIFF1 a = false -> aPC a = 0x1CA -> aHL a = 0x2000 -> alone (fun a' m' o => timeout_post a m a' m' o (at_ret a a' 0x1E1) (aBC' a) (aDE' a) (aHL' a)).
Proof. facts. intros. apply (alone_of FL ch absq OK); try assumption. apply timeout_alone; assumption. Qed.
Lemma timeout_again_alone_runs : aIFF1 a = false -> aPC a = 0x1D5 -> aHL a = 0x2000 -> alone (fun a' m' o => timeout_round a m a' m' o (at_ret a a' 0x1E1)).
Proof. facts. intros. apply (alone_of FL ch absq OK); try assumption. apply timeout_again_alone; assumption. Qed.
Lemma flush_alone_runs : aIFF1 a = false -> aPC a = 0x1E4 -> 0x4000 <= aSP a <= 0xFFFD -> alone (flush_post a m).
Proof. facts. intros. apply (alone_of FL ch absq OK); try assumption. apply flush_alone; try assumption; lia. Qed.
End Runs.
