(** Runs through the reset of the example computer, its return to the menu and its non-maskable interrupt. *)
From Coq Require Import ZArith Bool List Lia.
From Verif Require Import Base Parse Cpu Flavours Prog Trace Exec Range Clock RalMemory RalBus SpecRal SpecState SpecIsa IsaLink IsaRun Steps RomImage SpecRom RomHoare RomAsm RomIo RomRun SpecLib SpecReset RomReset.
Import ListNotations.
Open Scope Z_scope.

Section Runs.
Context {Q T D : Type}.
Variable FL : Flavour Q.
Variable ch : SpecIsa.chip T.
Variable absq : Q -> T.
Context (OK : chip_ok FL ch absq).
Variables (dv : dev D) (limit kb : Z) (l0 : list mop) (mm : ralmem) (c : cpu Q) (d : D) (k : tclock).
Hypothesis (KM : kernel_mem kb l0 mm) (W : wf c).
Notation a := (abs absq c).
Notation m := (kview kb (rev l0)).
Notation runs := (comes FL absq dv limit kb l0 mm c d k).
Notation alone := (comes_alone FL absq dv limit kb l0 mm c d k).
Hypothesis (PX : aPX a = None) (NH : aHALT a = false).
Ltac facts := assert (HT := run_top kb l0 mm KM); assert (C := run_code kb l0); assert (Y := run_bytes kb l0 mm KM); 
  assert (WA := run_A absq c W); assert (WF := F_byte absq c W); assert (WH := wf_hl c W).
Lemma reset_off_runs : aPC a = 0 -> runs (off 1 a m).
Proof. facts. intros. apply (comes_of FL ch absq OK); try assumption. apply reset_off; assumption. Qed.
Lemma reset_alone_runs : aPC a = 1 -> aIFF1 a = false -> alone (reset_post m).
Proof. facts. intros. apply (alone_of FL ch absq OK); try assumption. apply reset_alone; assumption. Qed.
Hypothesis KT : knows_top m kb.
Lemma abort_runs : aPC a = 0x38 -> 0x4000 <= aSP a <= 0xFFFB -> runs (abort_post a m).
Proof. facts. intros. apply (comes_of FL ch absq OK); try assumption. apply abort_goes; assumption. Qed.
Lemma abort_off_runs : aPC a = 0x38 -> 0x4000 <= aSP a <= 0xFFFB -> bit_at m 0x2007 0 = false ->
  runs (fun a' m' o => still m m' o /\ aPC a' = 0x40 /\ aIFF1 a' = false /\ aIFF2 a' = false /\ aHALT a' = false /\ aPX a' = None).
Proof. facts. intros. apply (comes_of FL ch absq OK); try assumption. apply abort_off; assumption. Qed.
Lemma menu_alone_runs : aPC a = 0x40 -> aIFF1 a = false -> aIFF2 a = false ->
  alone (fun a' m' o => menu_post m a' m' o (m 0x2007) /\ same_but (fun y => y = 0x2005 \/ at_top m y) m m').
Proof. facts. intros. apply (alone_of FL ch absq OK); try assumption. apply menu_alone; assumption. Qed.
Lemma nmi_alone_runs : aPC a = 0x66 -> aIFF1 a = false -> 0x4004 <= aSP a <= 0x4000 + kb * 1024 -> aSP a <= 0xFFFE -> alone (nmi_post a m).
Proof. facts. intros. apply (alone_of FL ch absq OK); try assumption. apply nmi_alone; assumption. Qed.
End Runs.
