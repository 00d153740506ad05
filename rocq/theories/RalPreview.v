(** C63: the preview. *)
From Coq Require Import ZArith Bool String List Lia.
From Verif Require Import Base Ops Parse Cpu Flavours Prog Exec Opconsts Range SpecIsa SpecDebug SpecDisasm IsaLink IsaRun Disasm DisasmProofs RalMemory RalBus RalRunner RalDebug.
Import ListNotations.
Open Scope list_scope.
Open Scope Z_scope.

Lemma peek_bytes m n : forall p l, peek m p n = Some l -> List.length l = n /\ Forall byte l /\
  forall i, (i < n)%nat -> exists v, m_read_debug m ((p + Z.of_nat i) mod 65536) = Some v /\ nth_error l i = Some (v mod 256).
Proof.
  induction n as [|n IH]; intros p l E; cbn [peek] in E.
  - injection E as <-. split; [reflexivity|]. split; [constructor|]. intros i Hi. lia.
  - destruct (m_read_debug m (u16 p)) as [v|] eqn:R; [|discriminate E]. destruct (peek m (p + 1) n) as [l'|] eqn:E'; [|discriminate E]. injection E as <-.
    destruct (IH _ _ E') as (L & F & X). split; [cbn; congruence|]. split; [constructor; [unfold byte, u8; apply Z.mod_pos_bound; lia|exact F]|].
    intros [|i] Hi; [exists v; rewrite Z.add_0_r; split; [exact R|reflexivity]|]. destruct (X i ltac:(lia)) as (v' & R' & N'). exists v'. split; [|exact N'].
    rewrite <- R'. f_equal. f_equal. lia.
Qed.
Section P.
Context {Q T D : Type}.
Variables (FL : Flavour Q) (ch : chip T) (absq : Q -> T).
Hypothesis OK : chip_ok FL ch absq.
Lemma preview_spec fuel q0 (w : world Q D) mm dd d : wf (w_cpu w) -> w_bus w = Some (mm, dd) -> (10 <= fuel)%nat -> debug_preview FL fuel q0 w = Done d ->
  let px := pbyte (prefix (w_cpu w)) in let k := List.length px in
  exists m rs, List.length m = 4%nat /\ firstn k m = px /\
    (forall i, (k <= i < 4)%nat -> exists v, m_read_debug mm ((pc (w_cpu w) + Z.of_nat (i - k)) mod 65536) = Some v /\ nth_error m i = Some (v mod 256)) /\
    listing ((pc (w_cpu w) - Z.of_nat k) mod 65536) m rs /\
    d = match rs with d' :: _ => d' | [] => mkDebug m "" ((pc (w_cpu w) - Z.of_nat k) mod 65536) (prefix (w_cpu w)) ANone end.
Proof.
  intros Hw HB HF E. unfold debug_preview in E. rewrite HB in E. cbn [checked fst] in E.
  assert (HP : 0 <= pc (w_cpu w) < 65536) by (apply Hw).
  assert (G : exists first p, (match prefix (w_cpu w) with Some px => ([prefix_to_code px], u16 (pc (w_cpu w) - 1)) | None => ([], pc (w_cpu w)) end) = (first, p) /\
    first = pbyte (prefix (w_cpu w)) /\ p = (pc (w_cpu w) - Z.of_nat (List.length first)) mod 65536 /\ (List.length first <= 1)%nat /\ Forall byte first).
  { destruct (prefix (w_cpu w)) as [[]|]; eexists _, _; (split; [reflexivity|]); (split; [reflexivity|]).
    1,2: split; [reflexivity|]; split; [cbn; lia|]; repeat constructor; cbn; lia.
    split; [|split; [cbn; lia|constructor]]. cbn. lia. }
  destruct G as (first & p & G & -> & Ep & Ln & Fb). rewrite G in E. clear G. unfold checked in E.
  set (px := pbyte (prefix (w_cpu w))) in *. set (k := List.length px) in *.
  destruct (peek mm (p + Z.of_nat k) (4 - k)) as [l|] eqn:PK; [|discriminate E]. destruct (peek_bytes _ _ _ _ PK) as (L & F & X).
  assert (Fm : Forall byte (px ++ l)) by now apply Forall_app. assert (Wp : word p) by (rewrite Ep; unfold word; apply Z.mod_pos_bound; lia).
  destruct (once_first FL ch absq OK q0 p (px ++ l) Wp Fm) as (rs & LS & ON). assert (L4 : List.length (px ++ l) = 4%nat) by (rewrite app_length, L; fold k; lia).
  rewrite ON in E by (rewrite L4; lia). cbv zeta. fold px. fold k. exists (px ++ l), rs. split; [exact L4|]. split; [unfold k; rewrite firstn_app, Nat.sub_diag, firstn_O, app_nil_r; apply firstn_all|].
  split; [|split; [rewrite <- Ep; exact LS|]].
  - intros i Hi. destruct (X (i - k)%nat ltac:(lia)) as (v & R & N). exists v. split; [|rewrite nth_error_app2; [exact N|lia]]. rewrite <- R. f_equal. rewrite Ep. lia.
  - destruct rs as [|d' rs]; cbn in E; injection E as <-; [rewrite Ep|]; reflexivity.
Qed.
Lemma peek_done m (R : forall a, 0 <= a < 65536 -> m_read_debug m a <> None) n : forall p, exists l, peek m p n = Some l.
Proof.
  induction n as [|n IH]; intros p; cbn [peek]; [eauto|]. destruct (m_read_debug m (u16 p)) as [v|] eqn:E; [|destruct (R (u16 p)); [apply Z.mod_pos_bound; lia|exact E]].
  destruct (IH (p + 1)) as [l ->]. eauto.
Qed.
Lemma preview_done fuel q0 (w : world Q D) mm dd : wf (w_cpu w) -> w_bus w = Some (mm, dd) -> (10 <= fuel)%nat -> (forall a, 0 <= a < 65536 -> m_read_debug mm a <> None) ->
  exists d, debug_preview FL fuel q0 w = Done d.
Proof.
  intros Hw HB HF R. unfold debug_preview. rewrite HB. cbn [checked fst].
  assert (G : exists first p, (match prefix (w_cpu w) with Some px => ([prefix_to_code px], u16 (pc (w_cpu w) - 1)) | None => ([], pc (w_cpu w)) end) = (first, p) /\
    Forall byte first /\ word p /\ (List.length first <= 1)%nat).
  { destruct (prefix (w_cpu w)) as [[]|]; eexists _, _; (split; [reflexivity|]).
    1,2: split; [repeat constructor; cbn; lia|]; split; [unfold word, u16; apply Z.mod_pos_bound; lia|cbn; lia].
    split; [constructor|]. split; [apply Hw|cbn; lia]. }
  destruct G as (first & p & -> & Fb & Wp & Ln). destruct (peek_done mm R (4 - List.length first) (p + Z.of_nat (List.length first))) as [l PK]. rewrite PK. cbn [checked].
  destruct (peek_bytes _ _ _ _ PK) as (L & F & _). assert (Fm : Forall byte (first ++ l)) by now apply Forall_app.
  destruct (once_first FL ch absq OK q0 p (first ++ l) Wp Fm) as (rs & _ & ON). rewrite ON by (rewrite app_length, L; lia). eauto.
Qed.
End P.
