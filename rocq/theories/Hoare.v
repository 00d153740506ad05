(** Programs on the specification [SpecIsa]: every run from a state ends in a state satisfying [P].  Memory is RAM,
    read below [top] and written from [rom] to [top] only; interrupts are disabled.  Time is counted in T-states. *)
From Coq Require Import ZArith Bool List Lia.
From Verif Require Import Base Flags Ops Parse Cpu Flavours Prog Trace Internal Instr Exec Range SafeRun Clock ClockProofs
  SpecAlu SpecState SpecIsa SpecCycles SpecLoop SpecProgram IsaLink IsaCycles IsaExec IsaRun Steps.
Import ListNotations.
Open Scope Z_scope.

Section Hoare.
Context {T WB RB : Type}.
Variable ch : chip T.
Variables rom top : Z.
Notation tree := (cyc WB RB (arch T * outcome WB RB)).
Definition readable (a : Z) : Prop := 0 <= a < top.
Definition writable (a : Z) : Prop := rom <= a < top.

(** The tree run on memory [m]. *)
Fixpoint wpt {X} (t : cyc WB RB X) (m : mem) (o : outs) (n : Z) (K : X -> mem -> outs -> Z -> Prop) : Prop :=
  match t with
  | SRet x => K x m o n
  | SM1 a _ k => readable a /\ wpt (k (m a)) m o (n + 4) K
  | SRd a k => readable a /\ wpt (k (m a)) m o (n + 3) K
  | SIdleM1 _ k => wpt k m o (n + 4) K
  | SSkip _ k => wpt k m o (n + 3) K
  | SX _ i k => 0 <= i /\ wpt k m o (n + i) K
  | SWr a v k => writable a /\ wpt k (mupd m a (v mod 256)) o (n + 3) K
  | SOut p v k => forall b, wpt (k b) m (o ++ [(p, v)]) (n + 4) K
  | SIrq _ | SIn _ _ | SReti _ _ | SAck _ _ => False
  end.
(** How an instruction ends: HALT halts, OUT may ask for a break. *)
Definition ends (a : arch T) (r : outcome WB RB) : Prop :=
  match r with ONext | OOut _ => aHALT a = false | OHalt => aHALT a = true | _ => False end.

Section Will.
Variable P : arch T -> mem -> outs -> Z -> Prop.
Inductive will : arch T -> mem -> outs -> Z -> Prop :=
| w_now a m o n : aHALT a = true -> P a m o n -> will a m o n
| w_step a m o n : aHALT a = false -> aIFF1 a = false -> on (next ch a) m o n -> will a m o n
with on : tree -> mem -> outs -> Z -> Prop :=
| on_ret a r m o n : ends a r -> will a m o n -> on (SRet (a, r)) m o n
| on_m1 a i k m o n : readable a -> on (k (m a)) m o (n + 4) -> on (SM1 a i k) m o n
| on_rd a k m o n : readable a -> on (k (m a)) m o (n + 3) -> on (SRd a k) m o n
| on_idle a k m o n : on k m o (n + 4) -> on (SIdleM1 a k) m o n
| on_skip a k m o n : on k m o (n + 3) -> on (SSkip a k) m o n
| on_x a i k m o n : 0 <= i -> on k m o (n + i) -> on (SX a i k) m o n
| on_wr a v k m o n : writable a -> on k (mupd m a (v mod 256)) o (n + 3) -> on (SWr a v k) m o n
| on_out p v k m o n : (forall b, on (k b) m (o ++ [(p, v)]) (n + 4)) -> on (SOut p v k) m o n.
Lemma on_wpt (t : tree) : forall m o n, wpt t m o n (fun x m o n => ends (fst x) (snd x) /\ will (fst x) m o n) -> on t m o n.
Proof.
  induction t; cbn [wpt]; intros m o n' W; try contradiction.
  - destruct x. destruct W. now constructor.
  - destruct W. constructor; auto.
  - constructor; auto.
  - destruct W. constructor; auto.
  - constructor; auto.
  - destruct W. constructor; auto.
  - destruct W. constructor; auto.
  - constructor. intros b. auto.
Qed.
Lemma will_step a m o n : aHALT a = false -> aIFF1 a = false ->
  wpt (next ch a) m o n (fun x m o n => ends (fst x) (snd x) /\ will (fst x) m o n) -> will a m o n.
Proof. intros H1 H2 W. apply w_step; [assumption..|now apply on_wpt]. Qed.
End Will.
End Hoare.
Scheme will_ind' := Minimality for will Sort Prop with on_ind' := Minimality for on Sort Prop.

(** Induction along a run. *)
Section Run.
Context {T WB RB : Type}.
Variable ch : chip T.
Variables rom top : Z.
Variable P : arch T -> mem -> outs -> Z -> Prop.
Notation tree := (cyc WB RB (arch T * outcome WB RB)).
Lemma tsum_cons1 e l : tsum (e :: l) = tstates e + tsum l.
Proof. reflexivity. Qed.
Definition no_waits (bl : list (bev WB RB)) : Prop := forall p v b w, In (VOut p v b w) bl -> w = None.
Lemma will_run (Q : arch T -> mem -> outs -> Z -> Prop) :
  (forall a m o n, aHALT a = true -> P a m o n -> Q a m o n) ->
  (forall a m o n, aHALT a = false -> aIFF1 a = false ->
    (forall bl cl a' r m', accepts (WB:=WB) (RB:=RB) (next ch a) bl cl (a', r) -> ram_log m bl m' -> no_waits bl ->
      exists m1, (forall x, m' x = m1 x) /\ ends a' r /\ Q a' m1 (o ++ outs_of bl) (n + tsum cl) /\ in_bounds rom top bl /\ 0 <= tsum cl) -> Q a m o n) ->
  forall a m o n, will (WB:=WB) (RB:=RB) ch rom top P a m o n -> Q a m o n.
Proof.
  intros HN HS.
  apply (will_ind' T WB RB ch rom top P Q
    (fun t m o n => forall bl cl a' r m', accepts t bl cl (a', r) -> ram_log m bl m' -> no_waits bl ->
      exists m1, (forall x, m' x = m1 x) /\ ends a' r /\ Q a' m1 (o ++ outs_of bl) (n + tsum cl) /\ in_bounds rom top bl /\ 0 <= tsum cl)).
  - exact HN.
  - intros a m o n H1 H2 _ IH. exact (HS a m o n H1 H2 IH).
  - intros a r m o n HE _ IH bl cl a' r' m' H M _. cbn [accepts] in H. destruct H as (-> & -> & H). injection H as <- <-.
    exists m. cbn [ram_log] in M. cbn [outs_of flat_map]. rewrite app_nil_r. change (tsum []) with 0. rewrite Z.add_0_r.
    repeat (split; [assumption|]). split; [constructor|lia].
  - intros ad i k m o n HR _ IH bl cl a' r' m' H M HW. cbn [accepts] in H. destruct bl as [|[] bl]; try contradiction.
    destruct cl as [|[] cl]; try contradiction. destruct H as (-> & -> & -> & H). cbn [ram_log] in M. destruct M as [-> M].
    destruct (IH bl cl a' r' m' H M) as (m1 & E1 & E2 & E3 & E4 & E5). { intros p x b w HI. apply (HW p x b w). now right. }
    exists m1. rewrite tsum_cons1. cbn [tstates]. rewrite Z.add_assoc. repeat (split; [assumption|]). split; [constructor; assumption|lia].
  - intros ad k m o n HR _ IH bl cl a' r' m' H M HW. cbn [accepts] in H. destruct bl as [|[] bl]; try contradiction.
    destruct cl as [|[] cl]; try contradiction. destruct H as (-> & -> & H). cbn [ram_log] in M. destruct M as [-> M].
    destruct (IH bl cl a' r' m' H M) as (m1 & E1 & E2 & E3 & E4 & E5). { intros p x b w HI. apply (HW p x b w). now right. }
    exists m1. rewrite tsum_cons1. cbn [tstates]. rewrite Z.add_assoc. repeat (split; [assumption|]). split; [constructor; assumption|lia].
  - intros ad k m o n _ IH bl cl a' r' m' H M HW. cbn [accepts] in H.
    destruct cl as [|[] cl]; try contradiction. destruct H as (-> & H).
    destruct (IH bl cl a' r' m' H M HW) as (m1 & E1 & E2 & E3 & E4 & E5).
    exists m1. rewrite tsum_cons1. cbn [tstates]. rewrite Z.add_assoc. repeat (split; [assumption|]). lia.
  - intros ad k m o n _ IH bl cl a' r' m' H M HW. cbn [accepts] in H.
    destruct cl as [|[] cl]; try contradiction. destruct H as (-> & H).
    destruct (IH bl cl a' r' m' H M HW) as (m1 & E1 & E2 & E3 & E4 & E5).
    exists m1. rewrite tsum_cons1. cbn [tstates]. rewrite Z.add_assoc. repeat (split; [assumption|]). lia.
  - intros ad i k m o n Hi _ IH bl cl a' r' m' H M HW. cbn [accepts] in H.
    destruct cl as [|[] cl]; try contradiction. destruct H as (-> & -> & H).
    destruct (IH bl cl a' r' m' H M HW) as (m1 & E1 & E2 & E3 & E4 & E5).
    exists m1. rewrite tsum_cons1. cbn [tstates]. rewrite Z.add_assoc. repeat (split; [assumption|]). lia.
  - intros ad v k m o n HR _ IH bl cl a' r' m' H M HW. cbn [accepts] in H. destruct bl as [|[] bl]; try contradiction.
    destruct cl as [|[] cl]; try contradiction. destruct H as (-> & -> & -> & H). cbn [ram_log] in M.
    destruct (IH bl cl a' r' m' H M) as (m1 & E1 & E2 & E3 & E4 & E5). { intros p x b w HI. apply (HW p x b w). now right. }
    exists m1. rewrite tsum_cons1. cbn [tstates]. rewrite Z.add_assoc. repeat (split; [assumption|]). split; [constructor; assumption|lia].
  - intros p v k m o n _ IH bl cl a' r' m' H M HW. cbn [accepts] in H. destruct bl as [|[] bl]; try contradiction.
    destruct cl as [|[] cl]; try contradiction. destruct H as (-> & -> & -> & H). cbn [ram_log] in M.
    assert (w = None) as -> by (eapply HW; left; reflexivity). cbn [waited] in H.
    destruct (IH b bl cl a' r' m' H M) as (m1 & E1 & E2 & E3 & E4 & E5). { intros q x b' w HI. apply (HW q x b' w). now right. }
    exists m1. rewrite tsum_cons1. cbn [tstates outs_of flat_map app]. rewrite Z.add_assoc. rewrite <- app_assoc in E3.
    repeat (split; [assumption|]). split; [constructor; [exact I|assumption]|lia].
Qed.
End Run.

(** ** From the specification to runs of the CPU *)
Section Link.
Context {Q T TS WB RB BS CK : Type}.
Variable FL : Flavour Q.
Variable ch : chip T.
Variable absq : Q -> T.
Context (OK : chip_ok FL ch absq).
Variable Hs : host TS WB RB BS CK.
Variable mo : BS -> mem.
Context (HC : computer Hs mo).
Variables rom top : Z.
Variable P : arch T -> mem -> outs -> Z -> Prop.
Implicit Types c : cpu Q.

Lemma runl_waits {X} (p : prog TS WB RB X) : forall b k x b' k' l, runl Hs p b k = Some (x, b', k', l) -> no_waits (buses l).
Proof.
  induction p; intros b0 k0 a0 b' k' l0 E; cbn [runl] in E.
  1: { injection E as <- <- <- <-. intros ? ? ? ? []. }
  1: discriminate.
  all: repeat match type of E with context [let (_, _) := ?x in _] => let F := fresh "F" in destruct x eqn:F end.
  all: cbv zeta in E; apply cons_log_inv in E; destruct E as (l' & E & ->).
  all: change (buses (?e :: l')) with (bus1 e ++ buses l').
  all: first [ apply H in E | apply IHp in E ].
  all: intros q x0 r0 w0 HN; apply in_app_or in HN; destruct HN as [HN|HN]; [|now apply E in HN].
  all: cbn in HN; try contradiction; try (repeat destruct HN as [HN|HN]; discriminate || contradiction).
  destruct HN as [HN|[]]. injection HN as <- <- <- <-. assert (W := co_wait _ _ HC b0 port data ts). rewrite F in W. exact W.
Qed.
(** One step of the CPU. *)
Lemma next_run dbg c b k : wf c -> exists c' r b' k' l,
  runl Hs (execute_next FL dbg c) b k = Some ((c', result_of r), b', k', l) /\ wf c' /\
  accepts (next ch (abs absq c)) (buses l) (clocks l) (abs absq c', r) /\ ram_log (mo b) (buses l) (mo b') /\ no_waits (buses l).
Proof.
  intros Hw. destruct (execute_next_follows FL ch absq OK dbg c Hw BS CK Hs b k) as ([c' r'] & b' & k' & l & E & _ & W & o & EO & HA).
  cbn [fst snd] in *. subst r'. exists c', o, b', k', l. split; [exact E|]. split; [exact W|]. split; [exact HA|].
  split; [exact (runl_ram Hs mo _ (co_ram _ _ HC) _ _ _ _ _ _ E)|exact (runl_waits _ _ _ _ _ _ _ E)].
Qed.
Lemma buses_app' (l1 l2 : list (ev TS WB RB)) : buses (l1 ++ l2) = buses l1 ++ buses l2.
Proof. unfold buses. apply flat_map_app. Qed.
Lemma clocks_app' (l1 l2 : list (ev TS WB RB)) : clocks (l1 ++ l2) = clocks l1 ++ clocks l2.
Proof. unfold clocks. apply flat_map_app. Qed.
Lemma outs_app (b1 b2 : list (bev WB RB)) : outs_of (b1 ++ b2) = outs_of b1 ++ outs_of b2.
Proof. apply flat_map_app. Qed.
Theorem will_halt dbg : forall a m o n, will (WB:=WB) (RB:=RB) ch rom top P a m o n ->
  forall c b k, wf c -> abs absq c = a -> (forall x, mo b x = m x) ->
  exists fuel c' b' k' l m', runl Hs (run_to_halt FL dbg fuel c) b k = Some (Some c', b', k', l) /\ wf c' /\ halt c' = true /\
    (forall x, mo b' x = m' x) /\ P (abs absq c') m' (o ++ outs_of (buses l)) (n + tsum (clocks l)) /\ in_bounds rom top (buses l).
Proof.
  apply (will_run ch rom top P (fun a m o n => forall c b k, wf c -> abs absq c = a -> (forall x, mo b x = m x) ->
    exists fuel c' b' k' l m', runl Hs (run_to_halt FL dbg fuel c) b k = Some (Some c', b', k', l) /\ wf c' /\ halt c' = true /\
    (forall x, mo b' x = m' x) /\ P (abs absq c') m' (o ++ outs_of (buses l)) (n + tsum (clocks l)) /\ in_bounds rom top (buses l))).
  - intros a m o n HH HP c b k Hw <- HM. change (aHALT (abs absq c)) with (halt c) in HH.
    exists 1%nat, c, b, k, [], m. cbn [run_to_halt]. rewrite HH. cbn [runl buses clocks outs_of flat_map]. rewrite app_nil_r.
    change (tsum []) with 0. rewrite Z.add_0_r. repeat (split; [first [reflexivity|assumption]|]). constructor.
  - intros a m o n HH HI IH c b k Hw <- HM. change (aHALT (abs absq c)) with (halt c) in HH.
    destruct (next_run dbg c b k Hw) as (c1 & r & b1 & k1 & l1 & E1 & W1 & A1 & M1 & N1).
    apply (ram_log_ext _ _ m) in M1; [|exact HM].
    destruct (IH _ _ _ _ _ A1 M1 N1) as (m1 & EM & EE & H1 & IB & _).
    destruct (H1 c1 b1 k1 W1 eq_refl EM) as (fuel & c2 & b2 & k2 & l2 & m2 & E2 & W2 & H2 & EM2 & P2 & IB2).
    exists (S fuel), c2, b2, k2, (l1 ++ l2), m2.
    rewrite buses_app', clocks_app', outs_app, app_assoc, ticks_app, Z.add_assoc.
    split; [|repeat (split; [assumption|]); now apply Forall_app].
    cbn [run_to_halt]. rewrite HH. rewrite runl_bind, E1. cbn [fst snd].
    destruct r; cbn [ends result_of] in *; try contradiction; try (rewrite E2; reflexivity).
    (* HALT *)
    change (aHALT (abs absq c1)) with (halt c1) in EE. destruct fuel; [discriminate|]. cbn [run_to_halt] in E2. rewrite EE in E2.
    rewrite E2. reflexivity.
Qed.
End Link.
