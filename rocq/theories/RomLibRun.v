(** The library routines of the kernel in runs of the machine (C61). *)
From Coq Require Import ZArith Bool List Lia.
From Verif Require Import Base Flags Ops Parse Cpu Flavours Prog Trace Internal Instr Exec Range Clock RalMemory RalBus SpecRal RalMemProofs RalBusProofs SpecAlu SpecState SpecIsa
  AluProofs IsaLink IsaRun Steps Asm RomImage SpecRom RomHoare RomAsm RomIo RomRun SpecLib RomLib RomLib2 RomLib3 RomPrune RomMoved.
Import ListNotations.
Open Scope Z_scope.

(** Texts from RST 28h. *)
Section Texts.
Context {T : Type}.
Variable ch : SpecIsa.chip T.
Variable top : Z.
Hypothesis HT : 0x4000 <= top <= 0x10000.
Variables (a0 : arch T) (m0 : mem).
Hypothesis (C : codeR m0) (Y : bytesR m0) (PX : aPX a0 = None) (NH : aHALT a0 = false) (SP : 0x4002 <= aSP a0 <= top) (SP2 : aSP a0 + 2 < 0x10000)
  (BC : 0 <= aBC a0 < 65536) (DE : 0 <= aDE a0 < 65536) (HL : 0 <= aHL a0 < 65536) (PC : aPC a0 = 0x28).
Lemma kept_start x : rAF x = aAF' a0 -> rIX x = aIX a0 -> rIY x = aIY a0 -> kept a0 m0 (aSP a0) x m0.
Proof. intros E1 E2 E3. unfold kept. repeat (split; [assumption|]). intros y _ _. reflexivity. Qed.
Notation G cs := (goes (WB:=unit) (RB:=unit) ch false top (Pc ch top cs (back a0 m0))).
Section Open.
Variables (sp f bc de hl i : Z) (x : rest) (im : InterruptMode) (i1 i2 e : bool) (j : junk3 T).
Hypothesis (ES : aSP a0 = sp) (S1 : 0x4002 <= sp <= top) (S2 : sp + 2 < 0x10000) (KP : kept a0 m0 sp x m0) (B : 0 <= bc < 65536) (D : 0 <= de < 65536) (H : 0 <= hl < 65536).
Lemma repeat_lib : G (repeat (lo bc) (times (hi bc))) (Sr 0x28 sp 10 f bc de hl x (mkCtl i im i1 i2 e) j) m0 [].
Proof.
  destruct (KP) as (E1 & E2 & E3 & _ & _ & SB). apply (rst28 ch top m0 C _ 10 0x1F1); [cbn; tauto|]. intros f1 jA _. do 2 istep.
  assert (LB := lo_range bc). assert (HB := hi_range bc B). unfold times.
  replace (if hi bc =? 0 then 256%nat else Z.to_nat (hi bc)) with (Datatypes.S (Z.to_nat ((hi bc - 1) mod 256))).
  2:{ destruct (Z.eqb_spec (hi bc) 0) as [->|N]; [reflexivity|]. rewrite Z.mod_small by lia. lia. }
  lazymatch goal with |- goes _ _ _ _ (Sr _ _ ?a1 ?f1 _ ?d1 ?h1 ?x1 (mkCtl ?i0 ?m1 ?q1 ?q2 ?e1) ?jj) ?mm _ =>
    pose proof (repeat_loop ch top a0 m0 sp ES S1 S2 (Z.to_nat ((hi bc - 1) mod 256)) (hi bc) (lo bc) f1 d1 h1 x1 i0 m1 q1 q2 e1 jj mm) as U end.
  rewrite word_hi_lo in U. apply U; try assumption. rewrite Z2Nat.id; [reflexivity|]. apply Z.mod_pos_bound. lia.
Qed.
Lemma tok_lib n : hl + Z.of_nat n < 0x10000 -> (forall y, hl <= y <= hl + Z.of_nat n -> ~ kernels 80 sp y) -> upto_tok m0 hl (lo de) n ->
  G (chars m0 hl n) (Sr 0x28 sp 12 f bc de hl x (mkCtl i im i1 i2 e) j) m0 [].
Proof.
  intros HN AW UT. destruct (KP) as (E1 & E2 & E3 & _ & _ & SB). apply (rst28 ch top m0 C _ 12 0x1F8); [cbn; tauto|]. intros f1 jA _. do 2 istep.
  assert (LB := lo_range de).
  lazymatch goal with |- goes _ _ _ _ (Sr _ _ ?a1 ?f1 ?b1 _ ?h1 ?x1 (mkCtl ?i0 ?m1 ?q1 ?q2 ?e1) ?jj) ?mm _ =>
    pose proof (tok_loop ch top a0 m0 sp ES S1 S2 n a1 f1 b1 (hi de) (lo de) h1 x1 i0 m1 q1 q2 e1 jj mm) as U end.
  rewrite word_hi_lo in U. apply U; try assumption; try lia.
Qed.
Lemma str_lib : hl + bc <= 0x10000 -> (forall y, hl <= y < hl + bc -> ~ kernels 80 sp y) ->
  G (chars m0 hl (Z.to_nat bc)) (Sr 0x28 sp 14 f bc de hl x (mkCtl i im i1 i2 e) j) m0 [].
Proof.
  intros HN AW. destruct (KP) as (E1 & E2 & E3 & _ & _ & SB). apply (rst28 ch top m0 C _ 14 0x203); [cbn; tauto|]. intros f1 jA _. istep.
  apply (str_loop ch top a0 m0 sp ES S1 S2 (Z.to_nat bc)); rewrite ?Z2Nat.id by lia; try assumption; try lia.
Qed.
End Open.
Lemma says_num8 : aA a0 = 16 -> sayg ch top (decimal8 (aDE a0 mod 256) (aDE a0 / 256)) (back a0 m0) a0 m0.
Proof.
  intros EA. rewrite sayg_eq. set (P := Pc _ _ _ _). rewrite (state_is a0 PX), NH, PC, EA. unfold ctl_of. apply lib8; try assumption; try reflexivity. apply kept_start; reflexivity.
Qed.
Lemma says_num16 : aA a0 = 18 -> sayg ch top (decimal16 (aDE a0 mod 256) (aHL a0)) (back a0 m0) a0 m0.
Proof.
  intros EA. rewrite sayg_eq. set (P := Pc _ _ _ _). rewrite (state_is a0 PX), NH, PC, EA. unfold ctl_of. apply lib16; try assumption; try reflexivity. apply kept_start; reflexivity.
Qed.
Lemma says_repeat : aA a0 = 10 -> sayg ch top (repeat (aBC a0 mod 256) (times (aBC a0 / 256))) (back a0 m0) a0 m0.
Proof.
  intros EA. rewrite sayg_eq. set (P := Pc _ _ _ _). rewrite (state_is a0 PX), NH, PC, EA. unfold ctl_of. apply repeat_lib; try assumption; try reflexivity. apply kept_start; reflexivity.
Qed.
Lemma says_tok n : aA a0 = 12 -> aHL a0 + Z.of_nat n < 0x10000 -> (forall y, aHL a0 <= y <= aHL a0 + Z.of_nat n -> ~ kernels 80 (aSP a0) y) -> upto_tok m0 (aHL a0) (aDE a0 mod 256) n ->
  sayg ch top (chars m0 (aHL a0) n) (back a0 m0) a0 m0.
Proof.
  intros EA HN AW UT. rewrite sayg_eq. set (P := Pc _ _ _ _). rewrite (state_is a0 PX), NH, PC, EA. unfold ctl_of. apply tok_lib; try assumption; try reflexivity. apply kept_start; reflexivity.
Qed.
Lemma says_str : aA a0 = 14 -> aHL a0 + aBC a0 <= 0x10000 -> (forall y, aHL a0 <= y < aHL a0 + aBC a0 -> ~ kernels 80 (aSP a0) y) ->
  sayg ch top (chars m0 (aHL a0) (Z.to_nat (aBC a0))) (back a0 m0) a0 m0.
Proof.
  intros EA HN AW. rewrite sayg_eq. set (P := Pc _ _ _ _). rewrite (state_is a0 PX), NH, PC, EA. unfold ctl_of. apply str_lib; try assumption; try reflexivity. apply kept_start; reflexivity.
Qed.
End Texts.

Section Runs.
Context {Q T : Type}.
Variable FL : Flavour Q.
Variable ch : SpecIsa.chip T.
Variable absq : Q -> T.
Context (OK : chip_ok FL ch absq).
Variables (kb : Z) (l0 : list mop) (mm : ralmem) (c : cpu Q).
Hypothesis (KM : kernel_mem kb l0 mm) (W : wf c).
Notation a := (abs absq c).
Notation m := (kview kb (rev l0)).
Notation top := (0x4000 + kb * 1024).
Lemma printing n N : called N a -> room 2 kb a ->
  (N = 16 -> says FL absq kb (decimal8 (aDE a mod 256) (aDE a / 256)) (back a m) l0 mm c) /\
  (N = 18 -> says FL absq kb (decimal16 (aDE a mod 256) (aHL a)) (back a m) l0 mm c) /\
  (N = 10 -> says FL absq kb (repeat (aBC a mod 256) (times (aBC a / 256))) (back a m) l0 mm c) /\
  (N = 12 -> aHL a + Z.of_nat n < 0x10000 -> (forall y, aHL a <= y <= aHL a + Z.of_nat n -> ~ kernels 80 (aSP a) y) -> upto_tok m (aHL a) (aDE a mod 256) n ->
    says FL absq kb (chars m (aHL a) n) (back a m) l0 mm c) /\
  (N = 14 -> aHL a + aBC a <= 0x10000 -> (forall y, aHL a <= y < aHL a + aBC a -> ~ kernels 80 (aSP a) y) ->
    says FL absq kb (chars m (aHL a) (Z.to_nat (aBC a))) (back a m) l0 mm c).
Proof.
  intros (PC & EA & PX & NH & SP) S1. unfold room in S1. assert (S3 : aSP a + 2 < 0x10000) by lia. assert (HT := run_top kb l0 mm KM). assert (C := run_code kb l0). assert (Y := run_bytes kb l0 mm KM).
  assert (WB := wf_bc c W). assert (WD := wf_de c W). assert (WH := wf_hl c W).
  split; [|split; [|split; [|split]]]; intros EN; intros; subst N; apply (says_of FL ch absq OK); try assumption.
  - apply says_num8; assumption.
  - apply says_num16; assumption.
  - apply says_repeat; assumption.
  - apply says_tok; assumption.
  - apply says_str; assumption.
Qed.
End Runs.

Section Runs2.
Context {Q T D : Type}.
Variable FL : Flavour Q.
Variable ch : SpecIsa.chip T.
Variable absq : Q -> T.
Context (OK : chip_ok FL ch absq).
Variables (dv : dev D) (limit kb : Z) (l0 : list mop) (mm : ralmem) (c : cpu Q) (d : D) (k : tclock).
Hypothesis (KM : kernel_mem kb l0 mm) (W : wf c).
Notation a := (abs absq c).
Notation m := (kview kb (rev l0)).
Notation top := (0x4000 + kb * 1024).
Notation runs := (comes FL absq dv limit kb l0 mm c d k).
Ltac facts := assert (HT := run_top kb l0 mm KM); assert (C := run_code kb l0); assert (Y := run_bytes kb l0 mm KM); 
  assert (WA := run_A absq c W); assert (WB := wf_bc c W); assert (WB' := wf_bc_alt c W); assert (WD := wf_de c W); assert (WH := wf_hl c W).
Ltac start := let PC := fresh "PC" in let EA := fresh "EA" in let PX := fresh "PX" in let NH := fresh "NH" in let SP := fresh "SP" in
  intros (PC & EA & PX & NH & SP); facts; assert (S1 : 0x4000 <= aSP a) by lia; assert (S2 : aSP a + 2 < 0x10000) by lia; intros; apply (comes_of FL ch absq OK); try assumption.
Lemma frames_runs : called 26 a -> runs (frames_post a m). Proof. start. apply frames_goes; assumption. Qed.
Lemma peek_runs : called 4 a -> runs (fun a' m' o => peek_post a m a' m' o (returns a m a') (aBC a) (aDE a) (aHL a)). Proof. start. apply peek_goes; assumption. Qed.
Lemma peek_again_runs : woken 0x1C3 0x2005 a -> runs (fun a' m' o => peek_post a m a' m' o (returns a m a') (aBC' a) (aDE' a) (aHL' a)). Proof. start. apply peek_again_goes; assumption. Qed.
Lemma flush_runs : called 8 a -> runs (flush_post a m). Proof. start. apply flush_goes; assumption. Qed.
Lemma flush_again_runs : woken 0x1ED (aHL a) a -> runs (flush_post a m). Proof. start. apply flush_again_goes; assumption. Qed.
Lemma wait_runs : called 0 a -> runs (fun a' m' o => wait_post a m a' m' o (aBC a) (aDE a) (aHL a)). Proof. start. apply wait_goes; assumption. Qed.
Lemma wait_again_runs : woken 0x19D 0x2000 a -> runs (fun a' m' o => wait_round a m a' m' o (returns a m a')). Proof. start. apply wait_again_goes; assumption. Qed.
Lemma timeout_runs : called 6 a -> runs (fun a' m' o => timeout_post a m a' m' o (returns a m a') (aBC a) (aDE a) (aHL a)). Proof. start. apply timeout_goes; assumption. Qed.
Lemma timeout_again_runs : woken 0x1D4 0x2000 a -> runs (fun a' m' o => timeout_round a m a' m' o (returns a m a')). Proof. start. apply timeout_again_goes; assumption. Qed.
Lemma move_runs : called 24 a -> let h := aHL a / 256 in 0x20 <= h -> 256 * h + 12 <= top -> (256 * h + 12 <= aSP a \/ aSP a + 1 < 256 * h) -> runs (move_post a m).
Proof. start. apply move_goes; assumption. Qed.
Lemma prune_runs : called 2 a -> room 4 kb a -> (have (in_of m) = None -> more (in_of m) = false) -> runs (prune_post a m).
Proof. start. apply prune_goes; assumption. Qed.
Lemma frames_alone_runs : aPC a = 0x2C3 -> aIFF1 a = false -> aPX a = None -> aHALT a = false -> 0x4000 <= aSP a <= 0xFFFD -> comes_alone FL absq dv limit kb l0 mm c d k (frames_post a m).
Proof.
  intros PC I1 PX NH SP. facts. assert (S1 : 0x4000 <= aSP a) by lia. assert (S2 : aSP a + 2 < 0x10000) by lia. apply (alone_of FL ch absq OK); try assumption. apply frames_alone; assumption.
Qed.
Lemma moved_runs : aIFF1 a = true -> aEI a = false -> aPX a = None -> aIM a = Mode2 -> moved a m -> room 6 kb a -> answered FL absq dv limit kb l0 mm c d k (irq_post a m).
Proof.
  intros I1 E PX IM (H1 & H2 & H3) R. facts. apply (irq_of FL ch absq OK); try assumption; [exact (run_enabled _ _ I1 E PX)|].
  apply irq_post_far_on; try assumption; [exact (F_byte absq c W)|exact (wf_pc c W)|exact (proj2 (wf_sp c W))].
Qed.
Lemma moved_first_runs : aIFF1 a = true -> aEI a = false -> aPX a = None -> aIM a = Mode2 -> moved a m -> room 6 kb a -> answered_alone FL absq dv limit kb l0 mm c d k (irq_first a m).
Proof.
  intros I1 E PX IM (H1 & H2 & H3) R. facts. apply (irq_alone_of FL ch absq OK); try assumption; [exact (run_enabled _ _ I1 E PX)|].
  apply irq_first_far_on; try assumption; [exact (F_byte absq c W)|exact (wf_pc c W)|exact (proj2 (wf_sp c W))].
Qed.
End Runs2.
