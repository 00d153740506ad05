(** The parts of the kernel that no interrupt can come into. *)
From Coq Require Import ZArith Bool List Lia.
From Verif Require Import Base Parse Cpu Flavours Range Clock RalMemory RalBus SpecRal SpecAlu SpecState SpecIsa AluProofs IsaLink IsaRun Trace Asm RomImage SpecRom RomHoare RomAsm RomIo RomRun SpecLib RomLib RomLib2 RomLib3.
Import ListNotations.
Open Scope Z_scope.

Section Alone.
Context {T : Type}.
Variable ch : SpecIsa.chip T.
Variable top : Z.
Hypothesis HT : 0x4000 <= top <= 0x10000.
Variables (m : mem) (a0 : arch T).
Hypothesis (C : codeR m) (Y : bytesR m) (PX : aPX a0 = None) (NH : aHALT a0 = false) (A : 0 <= aA a0 < 256) (BC' : 0 <= aBC' a0 < 65536).
Notation goes P := (goes (WB:=unit) (RB:=unit) ch false top P a0 m []).
Notation alone P := (RomHoare.goes (WB:=unit) (RB:=unit) ch true top P a0 m []).
Ltac is_a0 PC := set (P := fun a' m' o => _ : Prop); rewrite (state_is a0 PX), NH, PC; unfold ctl_of.
Ltac off_ok := lazymatch goal with |- off _ _ _ _ _ _ => split; [reflexivity|]; split; [intros y _ _; reflexivity|]; split; [reflexivity|]; split; [reflexivity|]; split; [reflexivity|];
  split; [first [reflexivity | assumption]|]; repeat (split; [reflexivity|]); reflexivity end.
Ltac aside_ok := split; [reflexivity|]; split; reflexivity.
(** Up to and with DI. *)
Lemma put_off : aPC a0 = 0x10 -> goes (fun a' m' o => off 0x179 a0 m a' m' o /\ aA a' = aA a0 /\ aHL a' = 0x2005 /\ aside (aBC a0) (aDE a0) (aHL a0) a').
Proof. intros PC. is_a0 PC. apply put_start; [left; reflexivity|exact C|]. intros j e. apply g_now. unfold P. split; [off_ok|]. split; [reflexivity|]. split; [reflexivity|aside_ok]. Qed.
Lemma put_again_off : aPC a0 = 0x18D -> aHL a0 = 0x2005 -> goes (fun a' m' o => off 0x179 a0 m a' m' o /\ aA a' = aA a0 /\ aHL a' = 0x2005 /\ aside (aBC' a0) (aDE' a0) (aHL' a0) a').
Proof. intros PC HL. is_a0 PC. rewrite HL. apply put_again; [left; reflexivity|exact C|]. intros j e. apply g_now. unfold P. split; [off_ok|]. split; [reflexivity|]. split; [reflexivity|aside_ok]. Qed.
Lemma get_off : aPC a0 = 0x08 -> goes (fun a' m' o => off 0x13F a0 m a' m' o /\ aA a' = aA a0 /\ aHL a' = 0x2005 /\ aside (aBC a0) (aDE a0) (aHL a0) a').
Proof. intros PC. is_a0 PC. apply get_start; [left; reflexivity|exact C|]. intros j e. apply g_now. unfold P. split; [off_ok|]. split; [reflexivity|]. split; [reflexivity|aside_ok]. Qed.
Lemma get_again_off : aPC a0 = 0x153 -> aHL a0 = 0x2005 -> goes (fun a' m' o => off 0x13F a0 m a' m' o /\ aA a' = aA a0 /\ aHL a' = 0x2005 /\ aside (aBC' a0) (aDE' a0) (aHL' a0) a').
Proof. intros PC HL. is_a0 PC. rewrite HL. apply get_again; [left; reflexivity|exact C|]. intros j e. apply g_now. unfold P. split; [off_ok|]. split; [reflexivity|]. split; [reflexivity|aside_ok]. Qed.
Lemma frames_off : aPC a0 = 0x28 -> aA a0 = 26 -> goes (fun a' m' o => off 0x2C3 a0 m a' m' o /\ aBC a' = aBC a0 /\ aDE a' = aDE a0 /\ aHL a' = aHL a0).
Proof. intros PC EA. is_a0 PC. rewrite EA. apply (rst28 ch top m C P 26 0x2C1); [cbn; tauto|]. intros f1 jA CF. do 2 istep. apply g_now. unfold P. split; [off_ok|]. aside_ok. Qed.
Lemma flush_off : aPC a0 = 0x28 -> aA a0 = 8 -> goes (fun a' m' o => off 0x1E4 a0 m a' m' o /\ aBC a' = aBC a0 /\ aDE a' = aDE a0 /\ aHL a' = aHL a0).
Proof. intros PC EA. is_a0 PC. rewrite EA. apply (rst28 ch top m C P 8 0x1E2); [cbn; tauto|]. intros f1 jA CF. do 2 istep. apply g_now. unfold P. split; [off_ok|]. aside_ok. Qed.
Lemma flush_again_off : aPC a0 = 0x1ED -> goes (fun a' m' o => off 0x1E4 a0 m a' m' o /\ aBC a' = aBC a0 /\ aDE a' = aDE a0 /\ aHL a' = aHL a0).
Proof. intros PC. is_a0 PC. do 2 istep. apply g_now. unfold P. split; [off_ok|]. aside_ok. Qed.
Lemma lib_off n t pc p : In (n, t, pc, p) [(4, 0x1B2, 0x1B6, 0x2005); (0, 0x196, 0x19A, 0x2000); (6, 0x1C6, 0x1CA, 0x2000)] ->
  aPC a0 = 0x28 -> aA a0 = n -> goes (fun a' m' o => off pc a0 m a' m' o /\ aHL a' = p /\ aside (aBC a0) (aDE a0) (aHL a0) a').
Proof.
  intros I PC EA. is_a0 PC. rewrite EA.
  apply (rst28 ch top m C P n t); [cbn in *; repeat destruct I as [I|I]; try contradiction; injection I as <- <- <- <-; tauto|]. intros f1 jA CF.
  cbn in I. repeat destruct I as [I|I]; try contradiction; injection I as <- <- <- <-; do 2 istep; apply g_now; unfold P; (split; [off_ok|]); (split; [reflexivity|aside_ok]).
Qed.
Lemma lib_again_off t pc p : In (t, pc, p) [(0x1C3, 0x1B6, 0x2005); (0x19D, 0x19E, 0x2000); (0x1D4, 0x1D5, 0x2000)] ->
  aPC a0 = t -> aHL a0 = p -> goes (fun a' m' o => off pc a0 m a' m' o /\ aA a' = aA a0 /\ aHL a' = p /\ aside (aBC' a0) (aDE' a0) (aHL' a0) a').
Proof.
  intros I PC EA. is_a0 PC. rewrite EA.
  cbn in I. repeat destruct I as [I|I]; try contradiction; injection I as <- <- <-; do 2 (try (istep; lazymatch goal with |- context [Sr 0x19E] => apply g_now | |- context [Sr 0x1D5] => apply g_now | |- context [Sr 0x1B6] => apply g_now | _ => idtac end)); unfold P; (split; [off_ok|]); (split; [reflexivity|]); (split; [reflexivity|aside_ok]).
Qed.
(** From there on. *)
Hypothesis I1 : aIFF1 a0 = false.
Ltac fin := split; [exact (still_refl m)|]; rewrite ?(in_have m), ?(out_waiting m);
  repeat match goal with H : bitn _ _ = _ |- _ => rewrite H end.
Ltac ret_ok := split; [constructor; first [reflexivity | assumption]|reflexivity].
Ltac wait_ok := split; [do 2 eexists; constructor; reflexivity|]; split; [reflexivity|]; split; [first [reflexivity | symmetry; assumption]|]; split; [reflexivity|]; split; reflexivity.
Lemma peek_alone : aPC a0 = 0x1B6 -> aHL a0 = 0x2005 -> alone (fun a' m' o => peek_post a0 m a' m' o (at_ret a0 a' 0x1BE) (aBC' a0) (aDE' a0) (aHL' a0)).
Proof.
  intros PC HL. is_a0 PC. rewrite HL. apply peek_1B6; try assumption; [right; exact I1|..].
  - intros. apply g_now. unfold P. fin. split; [ret_ok|]. split; [assumption|reflexivity].
  - intros B CF. intros. apply g_now. unfold P. fin. replace (carry a0) with false by (symmetry; exact CF). split; [ret_ok|assumption].
  - intros B CF. intros. apply g_now. unfold P. fin. replace (carry a0) with true by (symmetry; exact CF). split; [do 2 eexists; constructor; reflexivity|]. split; [reflexivity|]. split; [assumption|]. aside_ok.
Qed.
Lemma flush_alone : 0x4000 <= aSP a0 -> aSP a0 + 2 < 0x10000 -> aPC a0 = 0x1E4 -> alone (flush_post a0 m).
Proof.
  intros S1 S2 PC. set (P := flush_post a0 m). rewrite (state_is a0 PX), NH, PC; unfold ctl_of. apply flush_1E4; try assumption; [right; exact I1|..]; intros; apply g_now; unfold P; fin; [rewrite (word_of_at m)|]; ret_ok.
Qed.
Lemma wait_alone : aPC a0 = 0x19A -> aHL a0 = 0x2000 -> alone (fun a' m' o => wait_post a0 m a' m' o (aBC' a0) (aDE' a0) (aHL' a0)).
Proof. intros PC HL. is_a0 PC. rewrite HL. apply wait_19A; [exact C|right; exact I1|]. intros j. apply g_now. unfold P. fin. wait_ok. Qed.
Lemma wait_again_alone : aPC a0 = 0x19E -> aHL a0 = 0x2000 -> alone (fun a' m' o => wait_round a0 m a' m' o (at_ret a0 a' 0x1AA)).
Proof.
  intros PC HL. is_a0 PC. rewrite HL. apply wait_19E; try assumption; [right; exact I1|..]; cbn [rBC rest_of].
  - intros E. intros. apply g_now. unfold P, wait_round. fin. rewrite E, Z.eqb_refl. wait_ok.
  - intros E EB. intros. apply g_now. unfold P, wait_round. fin. replace (m 0x2000 =? aA a0) with false by lia. rewrite EB. change (1 =? 1) with true. cbv iota. ret_ok.
  - intros E EB. intros. apply g_now. unfold P, wait_round. fin. replace (m 0x2000 =? aA a0) with false by lia. replace (aBC' a0 =? 1) with false by lia. wait_ok.
Qed.
Lemma timeout_alone : aPC a0 = 0x1CA -> aHL a0 = 0x2000 -> alone (fun a' m' o => timeout_post a0 m a' m' o (at_ret a0 a' 0x1E1) (aBC' a0) (aDE' a0) (aHL' a0)).
Proof.
  intros PC HL. is_a0 PC. rewrite HL. apply time_1CA; try assumption; [right; exact I1|..]; intros; apply g_now; unfold P, timeout_post, char_or_wait; fin; [split; [ret_ok|assumption]|wait_ok].
Qed.
Lemma timeout_again_alone : aPC a0 = 0x1D5 -> aHL a0 = 0x2000 -> alone (fun a' m' o => timeout_round a0 m a' m' o (at_ret a0 a' 0x1E1)).
Proof.
  intros PC HL. is_a0 PC. rewrite HL. apply time_1D5; try assumption; [right; exact I1|..]; cbn [rBC rest_of].
  - intros E. intros. apply time_1CA; try assumption; [right; exact I1|..]; intros; apply g_now; unfold P, timeout_round, char_or_wait; fin; rewrite E, Z.eqb_refl; [split; [ret_ok|assumption]|rewrite <- E; wait_ok].
  - intros E EB. intros. apply g_now. unfold P, timeout_round, char_or_wait. fin. replace (m 0x2000 =? aA a0) with false by lia. rewrite EB. change (1 =? 1) with true. cbv iota. split; [ret_ok|assumption].
  - intros E EB. intros. apply time_1CA; try assumption; [right; exact I1|..]; intros; apply g_now; unfold P, timeout_round, char_or_wait; fin; (replace (m 0x2000 =? aA a0) with false by lia); (replace (aBC' a0 =? 1) with false by lia); [split; [ret_ok|assumption]|wait_ok].
Qed.
End Alone.
