(** Two executions in lockstep: same host calls in the same order, related answers, related results.
    Used to compare CPU flavours, to ignore stale struct fields, and to ignore break requests. *)
From Coq Require Import ZArith Bool List String Lia.
From Verif Require Import Base Flags Ops Parse Cpu Flavours Prog Trace Internal Instr Exec Decode Range Sym Accessors.
Import ListNotations.
Open Scope Z_scope.

Section Sim.
Context {TS WB RB : Type}.
Notation prog := (prog TS WB RB).
(** Which answers to [write_io] and [reti] are to be compared; which op-codes and interrupt vectors are considered. *)
Variable AW : option WB -> option WB -> Prop.
Variable AR : option RB -> option RB -> Prop.
Variables AO AI : Z -> Prop.

Inductive lsim {A B} (R : A -> B -> Prop) : prog A -> prog B -> Prop :=
| l_ret a b : R a b -> lsim R (Ret a) (Ret b)
| l_stuck : lsim R Stuck Stuck
| l_debug d p q : lsim R p q -> lsim R (Debug d p) (Debug d q)
| l_past k k' : (forall x, lsim R (k x) (k' x)) -> lsim R (IsPastLimit k) (IsPastLimit k')
| l_irq a k k' : (forall x, lsim R (k x) (k' x)) -> lsim R (AddIrq a k) (AddIrq a k')
| l_nomreq a n k k' : lsim R k k' -> lsim R (AddNoMreq a n k) (AddNoMreq a n k')
| l_m1 a k k' : (forall x, lsim R (k x) (k' x)) -> lsim R (AddM1 a k) (AddM1 a k')
| l_mreq a k k' : (forall x, lsim R (k x) (k' x)) -> lsim R (AddMreq a k) (AddMreq a k')
| l_io a k k' : (forall x, lsim R (k x) (k' x)) -> lsim R (AddIo a k) (AddIo a k')
| l_wait a n k k' : lsim R k k' -> lsim R (AddWait a n k) (AddWait a n k')
| l_ts k k' : (forall x, lsim R (k x) (k' x)) -> lsim R (AsTs k) (AsTs k')
| l_rio a t k k' : (forall x y, lsim R (k x y) (k' x y)) -> lsim R (ReadIo a t k) (ReadIo a t k')
| l_wio a v t k k' : (forall x x' y, AW x x' -> lsim R (k x y) (k' x' y)) -> lsim R (WriteIo a v t k) (WriteIo a v t k')
| l_isirq t k k' : (forall x, lsim R (k x) (k' x)) -> lsim R (IsIrq t k) (IsIrq t k')
| l_irqdata a t k k' : (forall x y, AI x -> lsim R (k x y) (k' x y)) -> lsim R (IrqData a t k) (IrqData a t k')
| l_reti a t k k' : (forall x x', AR x x' -> lsim R (k x) (k' x')) -> lsim R (Reti a t k) (Reti a t k')
| l_rd a t k k' : (forall x, lsim R (k x) (k' x)) -> lsim R (ReadMem a t k) (ReadMem a t k')
| l_rd16 a t k k' : (forall x, lsim R (k x) (k' x)) -> lsim R (ReadMem16 a t k) (ReadMem16 a t k')
| l_op a i t k k' : (forall x, AO x -> lsim R (k x) (k' x)) -> lsim R (ReadOpcode a i t k) (ReadOpcode a i t k')
| l_wr a v t k k' : lsim R k k' -> lsim R (WriteMem a v t k) (WriteMem a v t k')
| l_rdd a k k' : (forall x, lsim R (k x) (k' x)) -> lsim R (ReadDebug a k) (ReadDebug a k').

Lemma lsim_bind {A B C D} (R : A -> B -> Prop) (R' : C -> D -> Prop) p q f g :
  lsim R p q -> (forall a b, R a b -> lsim R' (f a) (g b)) -> lsim R' (pbind p f) (pbind q g).
Proof. intros H Hf. induction H; cbn [pbind]; try constructor; auto. Qed.
Lemma lsim_mono {A B} (R R' : A -> B -> Prop) p q : (forall a b, R a b -> R' a b) -> lsim R p q -> lsim R' p q.
Proof. intros Hf H. induction H; try constructor; auto. Qed.
End Sim.

(** Same host, same answers: the logs agree as long as the op-codes fetched are among those considered. *)
Definition op_in (AO AI : Z -> Prop) {TS WB RB} (e : ev TS WB RB) : Prop :=
  match e with EOp _ _ _ v => AO v | EIrqData _ _ v _ => AI v | _ => True end.
Lemma lsim_runl {TS WB RB A B} (AO AI : Z -> Prop) (R : A -> B -> Prop) (p : prog TS WB RB A) (q : prog TS WB RB B) :
  lsim eq eq AO AI R p q -> forall BS CK (Hs : host TS WB RB BS CK) b k a b' k' l,
  runl Hs p b k = Some (a, b', k', l) -> Forall (op_in AO AI) l ->
  exists a', runl Hs q b k = Some (a', b', k', l) /\ R a a'.
Proof.
  intros H BS CK Hs. induction H; intros b0 c0 a0 b1 c1 l0 E0 F0; cbn [runl] in *; cbv zeta in *.
  1: { injection E0 as <- <- <- <-. eauto. }
  1: discriminate.
  all: repeat match type of E0 with context [let (_, _) := ?x in _] => destruct x end.
  all: match type of E0 with cons_log _ ?r = _ => destruct r as [[[[? ?] ?] ?]|] eqn:E1; [|discriminate] end.
  all: cbn [cons_log] in E0; injection E0 as <- <- <- <-; apply Forall_inv in F0 as F1; apply Forall_inv_tail in F0.
  all: cbn [op_in] in F1.
  all: first [ eapply IHlsim in E1; [|exact F0] | eapply H0 in E1; [|exact F0] | eapply (H0 _ F1) in E1; [|exact F0] | eapply (H0 _ _ F1) in E1; [|exact F0]
             | eapply (H0 _ _ _ eq_refl) in E1; [|exact F0] | eapply (H0 _ _ eq_refl) in E1; [|exact F0] ].
  all: destruct E1 as (a' & E1 & HR); rewrite E1; exists a'; split; [reflexivity|exact HR].
Qed.

(** ** States *)
(** Replace the accumulator-flag word, PC, prefix and flavour state: fields overridden by the locals
    of a running instruction (the flag byte, PC and prefix), or flavour specific. *)
Definition withx {Q1 Q2} (a z : Z) (p : option Prefix) (q : Q2) (c : cpu Q1) : cpu Q2 :=
  mkCpu a (af_alt c) (bc c) (de c) (hl c) (bc_alt c) (de_alt c) (hl_alt c) (ix c) (iy c) z
        (sp c) (memptr c) (last_ei c) (ir c) (im c) (iff1 c) (iff2 c) (halt c) p (r c) q.

(** ... and the [last_ei] flag, which no instruction looks at. *)
Definition withe {Q1 Q2} (a z : Z) (p : option Prefix) (e : bool) (q : Q2) (c : cpu Q1) : cpu Q2 :=
  mkCpu a (af_alt c) (bc c) (de c) (hl c) (bc_alt c) (de_alt c) (hl_alt c) (ix c) (iy c) z
        (sp c) (memptr c) e (ir c) (im c) (iff1 c) (iff2 c) (halt c) p (r c) q.

Section Pair.
Context {Q1 Q2 TS WB RB : Type}.
Variables (FL1 : Flavour Q1) (FL2 : Flavour Q2).
Variable dbg : bool.
Variable AW : option WB -> option WB -> Prop.
Variable AR : option RB -> option RB -> Prop.
Variables AO AI : Z -> Prop.
Hypothesis AW_none : AW None None.
Hypothesis AR_none : AR None None.
(** Relation of the [last_ei] flags. *)
Variable RE : bool -> bool -> Prop.
Hypothesis RE_refl : forall b, RE b b.
(** Relation of the flavour states; which flavour functions agree. *)
Variable RQ : Q1 -> Q2 -> Prop.
Variables bM bE bO bQ : bool.
Hypothesis R_begin : forall q1 q2, RQ q1 q2 -> RQ (begin_instruction FL1 q1) (begin_instruction FL2 q2).
Hypothesis R_mod : forall q1 q2, RQ q1 q2 -> RQ (flags_modified FL1 q1) (flags_modified FL2 q2).
Hypothesis R_mix : bM = true -> forall a l, memptr_mix FL1 a l = memptr_mix FL2 a l.
Hypothesis R_early : bE = true -> accept_irq_early FL1 = accept_irq_early FL2.
Hypothesis R_out : bO = true -> constant_out_data FL1 = constant_out_data FL2.
Hypothesis R_q : bQ = true -> forall q1 q2 a f, RQ q1 q2 -> get_q FL1 q1 a f = get_q FL2 q2 a f.

Notation lsim := (lsim (TS:=TS) AW AR AO AI).

Record srel (s1 : @st Q1) (s2 : @st Q2) : Prop := mkSrel {
  sr_c : exists a z p e q, sc s2 = withe a z p e q (sc s1) /\ hi8 a = hi8 (af (sc s1)) /\ RQ (flavour (sc s1)) q /\ RE (last_ei (sc s1)) e;
  sr_f : sfl s2 = sfl s1; sr_pc : spc s2 = spc s1; sr_px : spx s2 = spx s1 }.

Definition lm {A B} (m1 : M Q1 TS WB RB A) (m2 : M Q2 TS WB RB B) (P : A -> B -> Prop) : Prop :=
  forall s1 s2, srel s1 s2 -> lsim (fun x y => srel (fst x) (fst y) /\ P (snd x) (snd y)) (m1 s1) (m2 s2).

Lemma lm_bind {A B C D} (m1 : M Q1 TS WB RB A) (m2 : M Q2 TS WB RB B) (f : A -> M Q1 TS WB RB C)
    (g : B -> M Q2 TS WB RB D) P :
  lm m1 m2 (fun a b => lm (f a) (g b) P) -> lm (mbind m1 f) (mbind m2 g) P.
Proof.
  intros H s1 s2 HS. unfold mbind. apply (lsim_bind _ _ _ _ _ _ _ _ _ _ (H s1 s2 HS)).
  intros x y [H1 H2]. now apply H2.
Qed.
Lemma lm_mono {A B} (m1 : M Q1 TS WB RB A) (m2 : M Q2 TS WB RB B) (P P' : A -> B -> Prop) :
  (forall a b, P a b -> P' a b) -> lm m1 m2 P -> lm m1 m2 P'.
Proof. intros HP H s1 s2 HS. refine (lsim_mono _ _ _ _ _ _ _ _ _ (H s1 s2 HS)). intros x y [? ?]. auto. Qed.
Lemma lm_mret {A B} (a : A) (b : B) (P : A -> B -> Prop) : P a b -> lm (mret a) (mret b) P.
Proof. intros H s1 s2 HS. constructor. auto. Qed.
Lemma lm_stuck {A B} (P : A -> B -> Prop) : lm stuck stuck P.
Proof. intros s1 s2 HS. constructor. Qed.
Lemma lm_getf (P : Z -> Z -> Prop) : (forall v, P v v) -> lm getf getf P.
Proof. intros H s1 s2 HS. constructor. cbn [fst snd]. rewrite (sr_f _ _ HS). auto. Qed.
Lemma lm_setf v (P : unit -> unit -> Prop) : P tt tt -> lm (setf v) (setf v) P.
Proof. intros H s1 s2 HS. constructor. cbn [fst snd]. split; [|exact H]. destruct HS. constructor; cbn; auto. Qed.
Lemma lm_getpc (P : Z -> Z -> Prop) : (forall v, P v v) -> lm getpc getpc P.
Proof. intros H s1 s2 HS. constructor. cbn [fst snd]. rewrite (sr_pc _ _ HS). auto. Qed.
Lemma lm_setpc v (P : unit -> unit -> Prop) : P tt tt -> lm (setpc v) (setpc v) P.
Proof. intros H s1 s2 HS. constructor. cbn [fst snd]. split; [|exact H]. destruct HS. constructor; cbn; auto. Qed.
Lemma lm_setpx v (P : unit -> unit -> Prop) : P tt tt -> lm (setpx v) (setpx v) P.
Proof. intros H s1 s2 HS. constructor. cbn [fst snd]. split; [|exact H]. destruct HS. constructor; cbn; auto. Qed.
Lemma lm_getc {A} (f : cpu Q1 -> A) (g : cpu Q2 -> A) (P : A -> A -> Prop) :
  (forall a z p e q c, hi8 a = hi8 (af c) -> g (withe a z p e q c) = f c) -> (forall v, P v v) -> lm (getc f) (getc g) P.
Proof.
  intros HE H s1 s2 HS. constructor. cbn [fst snd]. split; [exact HS|]. destruct HS as [(a & z & p & e & q & E & HA & _) _ _ _].
  rewrite E, HE by exact HA. apply H.
Qed.
Lemma lm_getq (P : Q1 -> Q2 -> Prop) : (forall q1 q2, RQ q1 q2 -> P q1 q2) -> lm (getc flavour) (getc flavour) P.
Proof.
  intros H s1 s2 HS. constructor. cbn [fst snd]. split; [exact HS|]. destruct HS as [(a & z & p & e & q & E & _ & HQ & _) _ _ _].
  rewrite E. apply H. exact HQ.
Qed.
(** [f] and [g] change the common fields alike. *)
Definition uniform (f : cpu Q1 -> cpu Q1) (g : cpu Q2 -> cpu Q2) : Prop :=
  forall a z p e q c, hi8 a = hi8 (af c) -> RQ (flavour c) q -> RE (last_ei c) e -> exists a' z' p' e' q',
    g (withe a z p e q c) = withe a' z' p' e' q' (f c) /\ hi8 a' = hi8 (af (f c)) /\ RQ (flavour (f c)) q' /\ RE (last_ei (f c)) e'.
Lemma lm_upd f g (P : unit -> unit -> Prop) : uniform f g -> P tt tt -> lm (upd f) (upd g) P.
Proof.
  intros HU H s1 s2 HS. constructor. cbn [fst snd]. split; [|exact H].
  destruct HS as [(a & z & p & e & q & E & HA & HQ & HE) E1 E2 E3]. constructor; cbn [sc sfl spc spx]; auto.
  rewrite E. destruct (HU a z p e q _ HA HQ HE) as (a' & z' & p' & e' & q' & H1 & H2 & H3 & H4).
  exists a', z', p', e', q'. auto.
Qed.
Lemma lm_no_mreq a n (P : unit -> unit -> Prop) : P tt tt -> lm (add_no_mreq a n) (add_no_mreq a n) P.
Proof. intros H s1 s2 HS. constructor. constructor. auto. Qed.
Lemma lm_wait a n (P : unit -> unit -> Prop) : P tt tt -> lm (add_wait_states a n) (add_wait_states a n) P.
Proof. intros H s1 s2 HS. constructor. constructor. auto. Qed.
Lemma lm_m1 a (P : TS -> TS -> Prop) : (forall t, P t t) -> lm (add_m1 a) (add_m1 a) P.
Proof. intros H s1 s2 HS. constructor. intros t. constructor. auto. Qed.
Lemma lm_mreq a (P : TS -> TS -> Prop) : (forall t, P t t) -> lm (add_mreq a) (add_mreq a) P.
Proof. intros H s1 s2 HS. constructor. intros t. constructor. auto. Qed.
Lemma lm_io a (P : TS -> TS -> Prop) : (forall t, P t t) -> lm (add_io a) (add_io a) P.
Proof. intros H s1 s2 HS. constructor. intros t. constructor. auto. Qed.
Lemma lm_ts (P : TS -> TS -> Prop) : (forall t, P t t) -> lm as_timestamp as_timestamp P.
Proof. intros H s1 s2 HS. constructor. intros t. constructor. auto. Qed.
Lemma lm_read_io p t (P : Z * option Z -> Z * option Z -> Prop) : (forall x, P x x) -> lm (read_io p t) (read_io p t) P.
Proof. intros H s1 s2 HS. constructor. intros v w. constructor. auto. Qed.
Lemma lm_write_io p v t (P : option WB * option Z -> option WB * option Z -> Prop) :
  (forall x x' w, AW x x' -> P (x, w) (x', w)) -> lm (write_io p v t) (write_io p v t) P.
Proof. intros H s1 s2 HS. constructor. intros x x' w HA. constructor. split; [exact HS|]. now apply H. Qed.
Lemma lm_is_irq t (P : bool -> bool -> Prop) : (forall x, P x x) -> lm (is_irq t) (is_irq t) P.
Proof. intros H s1 s2 HS. constructor. intros v. constructor. auto. Qed.
Lemma lm_reti p t (P : option RB -> option RB -> Prop) : (forall x x', AR x x' -> P x x') -> lm (reti p t) (reti p t) P.
Proof. intros H s1 s2 HS. constructor. intros x x' HA. constructor. split; [exact HS|]. now apply H. Qed.
Lemma lm_read_mem a t (P : Z -> Z -> Prop) : (forall v, P v v) -> lm (read_mem a t) (read_mem a t) P.
Proof. intros H s1 s2 HS. constructor. intros v. constructor. auto. Qed.
Lemma lm_read_mem16 a t (P : Z -> Z -> Prop) : (forall v, P v v) -> lm (read_mem16 a t) (read_mem16 a t) P.
Proof. intros H s1 s2 HS. constructor. intros v. constructor. auto. Qed.
Lemma lm_read_opcode p i t (P : Z -> Z -> Prop) : (forall v, AO v -> P v v) -> lm (read_opcode p i t) (read_opcode p i t) P.
Proof. intros H s1 s2 HS. constructor. intros v HA. constructor. auto. Qed.
Lemma lm_read_debug a (P : Z -> Z -> Prop) : (forall v, P v v) -> lm (read_debug a) (read_debug a) P.
Proof. intros H s1 s2 HS. constructor. intros v. constructor. auto. Qed.
Lemma lm_write_mem a v t (P : unit -> unit -> Prop) : P tt tt -> lm (write_mem a v t) (write_mem a v t) P.
Proof. intros H s1 s2 HS. constructor. constructor. auto. Qed.
Lemma lm_debug bytes mn args (P : unit -> unit -> Prop) : P tt tt ->
  lm (cpu_debug dbg bytes mn args) (cpu_debug dbg bytes mn args) P.
Proof.
  intros H s1 s2 HS. unfold cpu_debug. rewrite (sr_px _ _ HS), (sr_pc _ _ HS). destruct dbg; [|constructor; auto].
  destruct (args (spx s1)); [|constructor]. destruct (_ <=? _)%nat; constructor; constructor; auto.
Qed.

(** The ways an instruction can end. *)
Definition rrel (r1 r2 : option (exit_reason WB RB)) : Prop :=
  match r1, r2 with
  | Some Halt, Some Halt | Some EnableInt, Some EnableInt | None, None => True
  | Some (WriteIoR w), Some (WriteIoR w') => AW (Some w) (Some w')
  | Some (WriteIoR w), None => AW (Some w) None
  | None, Some (WriteIoR w) => AW None (Some w)
  | Some (RetiR w), Some (RetiR w') => AR (Some w) (Some w')
  | Some (RetiR w), None => AR (Some w) None
  | None, Some (RetiR w) => AR None (Some w)
  | _, _ => False
  end.

(** Which instructions involve the flavour functions that may differ. *)
Definition plain_ed (c : Z) : Prop :=
  match decode_ed c with
  | E_OUT => reg8_b5_3 c = None -> bO = true
  | E_LD_A_ir _ => bE = true
  | _ => True
  end.
Definition plain (c : Z) : Prop :=
  match decode_none c with
  | M_LD_rp_A _ | M_LD_nn_A | M_OUT_n_A => bM = true
  | M_CCF | M_SCF => bQ = true
  | M_ED => forall v, AO v -> plain_ed v
  | _ => True
  end.

Ltac sgetc := let E := fresh in intros ? ? ? ? ? ? E;
  first [reflexivity | exact E | unfold get_acc, get_reg, withe; cbn [af bc de hl]; rewrite ?E; reflexivity].
Ltac supd0 := let E := fresh in let HQ := fresh in let HE := fresh in intros ? ? ? ? ? ? E HQ HE;
  do 5 eexists; split; [reflexivity|];
  split; [first [exact E | reflexivity]|]; split; [first [exact HQ | apply R_mod; exact HQ | apply R_begin; exact HQ]|];
  first [exact HE | apply RE_refl].
Lemma u_af v w (f : cpu Q1 -> Z) (g : cpu Q2 -> Z) :
  (forall c, f c = set8hi (af c) v) -> (forall c, g c = set8hi (af c) w) -> v = w ->
  uniform (fun c => set_af (f c) c) (fun c => set_af (g c) c).
Proof.
  intros H1 H2 <- a z p e q c E HQ HE. rewrite H1, H2. do 5 eexists. split; [reflexivity|]. split; [|split; [exact HQ|exact HE]].
  unfold set8hi. cbn [af set_af withe]. rewrite !hi_mk by apply lo8_byte. reflexivity.
Qed.
Lemma u_set_acc v : uniform (set_acc v) (set_acc v).
Proof. now apply (u_af v v). Qed.
Lemma u_set_reg g p v : uniform (set_reg g p v) (set_reg g p v).
Proof. destruct g; try (now apply (u_af v v)); destruct p as [[]|]; supd0. Qed.
Lemma u_set_r16 g v : uniform (set_r16 g v) (set_r16 g v).
Proof. destruct g; supd0. Qed.
Lemma u_set_index g v : uniform (set_index16 g v) (set_index16 g v).
Proof. destruct g; supd0. Qed.
Lemma u_set_ir (i : bool) v : uniform (if i then set_i v else set_r v) (if i then set_i v else set_r v).
Proof. destruct i; supd0. Qed.
Lemma get_reg_withe g p a z x e (q : Q2) (c : cpu Q1) : hi8 a = hi8 (af c) -> get_reg g p (withe a z x e q c) = get_reg g p c.
Proof. intros E. destruct g; try exact E; destruct p as [[]|]; reflexivity. Qed.
Lemma u_load_reg d s p : uniform (load_reg d s p) (load_reg d s p).
Proof.
  intros a z x e q c E HQ HE. unfold load_reg. rewrite get_reg_withe by exact E. now apply u_set_reg.
Qed.
Lemma u_ex_af f : uniform (fun c => let a := hi8 (af c) in set_af_alt (mk16 a f) (set_af (af_alt c) c))
  (fun c => let a := hi8 (af c) in set_af_alt (mk16 a f) (set_af (af_alt c) c)).
Proof.
  intros a z p e q c E HQ HE. cbv zeta. unfold withe at 1. cbn [af af_alt]. rewrite E.
  do 5 eexists. split; [reflexivity|]. split; [reflexivity|split; [exact HQ|exact HE]].
Qed.
Lemma lm_ex_af (P : unit -> unit -> Prop) : P tt tt -> lm ex_af_af_with_flags ex_af_af_with_flags P.
Proof.
  intros H [c1 f1 p1 x1] [c2 f2 p2 x2] [(a & z & p & e & q & E & HA & HQ & HE) E1 E2 E3]. cbn [sc sfl spc spx] in *. subst.
  constructor. cbn [fst snd]. split; [|exact H]. constructor; [|reflexivity..].
  destruct (u_ex_af f1 a z p e q c1 HA HQ HE) as (a' & z' & p' & e' & q' & U1 & U2 & U3 & U4).
  exists a', z', p', e', q'. auto.
Qed.
Lemma u_bump16 g (k : Z -> Z) : uniform (fun x => set_r16 g (k (get_r16 g x)) x) (fun x => set_r16 g (k (get_r16 g x)) x).
Proof. destruct g; supd0. Qed.
Lemma u_bump_ix p (k : Z -> Z) :
  uniform (fun x => set_index16 p (k (get_index16 p x)) x) (fun x => set_index16 p (k (get_index16 p x)) x).
Proof. destruct p; supd0. Qed.
Ltac supd := first [ apply u_set_acc | apply u_set_reg | apply u_set_r16 | apply u_set_index | apply u_set_ir
  | apply u_load_reg | apply u_ex_af | apply (u_bump16 _ (fun v => u16 (v + 1))) | apply (u_bump16 _ (fun v => u16 (v - 1)))
  | apply (u_bump_ix _ (fun v => u16 (v + 1))) | apply (u_bump_ix _ (fun v => u16 (v - 1))) | supd0 ].
Ltac sleaf := first
  [ exact I | assumption | reflexivity
  | match goal with H : AW ?x ?y |- _ => destruct x, y; cbn; assumption || exact I end
  | match goal with H : AR ?x ?y |- _ => destruct x, y; cbn; assumption || exact I end ].
Ltac ls1 := cbv zeta; cbn [fst snd]; cbv beta; lazymatch goal with
  | |- lm (mbind _ _) _ _ => apply lm_bind
  | |- lm (mret _) _ _ => apply lm_mret
  | |- lm stuck _ _ => apply lm_stuck
  | |- lm getf _ _ => apply lm_getf; intros ?
  | |- lm (setf _) _ _ => apply lm_setf
  | |- lm getpc _ _ => apply lm_getpc; intros ?
  | |- lm (setpc _) _ _ => apply lm_setpc
  | |- lm (setpx _) _ _ => apply lm_setpx
  | |- lm (getc flavour) _ _ => apply lm_getq; intros ? ? ?
  | |- lm (getc _) _ _ => apply lm_getc; [sgetc|intros ?]
  | |- lm (upd _) _ _ => apply lm_upd; [supd|]
  | |- lm (add_no_mreq _ _) _ _ => apply lm_no_mreq
  | |- lm (add_wait_states _ _) _ _ => apply lm_wait
  | |- lm (add_m1 _) _ _ => apply lm_m1; intros ?
  | |- lm (add_mreq _) _ _ => apply lm_mreq; intros ?
  | |- lm (add_io _) _ _ => apply lm_io; intros ?
  | |- lm as_timestamp _ _ => apply lm_ts; intros ?
  | |- lm (read_io _ _) _ _ => apply lm_read_io; intros ?
  | |- lm (write_io _ _ _) _ _ => apply lm_write_io; intros ? ? ? ?
  | |- lm (is_irq _) _ _ => apply lm_is_irq; intros ?
  | |- lm (reti _ _) _ _ => apply lm_reti; intros ? ? ?
  | |- lm (read_mem _ _) _ _ => apply lm_read_mem; intros ?
  | |- lm (read_mem16 _ _) _ _ => apply lm_read_mem16; intros ?
  | |- lm (read_opcode _ _ _) _ _ => apply lm_read_opcode; intros ? ?
  | |- lm (read_debug _) _ _ => apply lm_read_debug; intros ?
  | |- lm (write_mem _ _ _) _ _ => apply lm_write_mem
  | |- lm (cpu_debug _ _ _ _) _ _ => apply lm_debug
  | |- lm ex_af_af_with_flags _ _ => apply lm_ex_af
  | |- lm (match ?x with _ => _ end) (match ?x with _ => _ end) _ => destruct x eqn:?
  | |- lm (match ?x with _ => _ end) (match ?y with _ => _ end) _ => destruct x eqn:?, y eqn:?
  | |- lm ?m _ _ => let h := head_of m in sx_unfold h
  end.
Ltac ls := repeat ls1.

Lemma run_ed_ls c : plain_ed c -> lm (run_ed FL1 dbg c) (run_ed FL2 dbg c) rrel.
Proof.
  intros HP. unfold plain_ed in HP. unfold run_ed. destruct (decode_ed c) eqn:ED.
  all: try (unfold instr_ld_a_from_ir; rewrite (R_early HP)).
  all: try (unfold io_r_out_bc; destruct (reg8_b5_3 c) eqn:EG; [|rewrite (R_out (HP eq_refl))]).
  all: ls.
  all: try sleaf.
Qed.
Lemma run_none_ls c : plain c -> lm (run_none FL1 dbg c) (run_none FL2 dbg c) rrel.
Proof.
  intros HP. unfold plain in HP. unfold run_none. destruct (decode_none c) eqn:ED.
  all: ls.
  all: try (match goal with HQ : RQ _ _ |- _ => rewrite (R_q HP _ _ _ _ HQ); ls end).
  all: try (rewrite (R_mix HP); ls).
  all: try (apply run_ed_ls; auto).
  all: try sleaf.
Qed.
Lemma run_pfx_ls px c : lm (run_pfx FL1 dbg px c) (run_pfx FL2 dbg px c) eq.
Proof.
  unfold run_pfx. destruct (decode_pfx c) eqn:ED.
  all: ls.
  all: try sleaf.
Qed.
Lemma exec_code_ls c : plain c -> lm (exec_code FL1 dbg c) (exec_code FL2 dbg c) rrel.
Proof.
  intros HP. unfold exec_code. apply lm_bind, lm_upd; [supd0|]. apply lm_bind.
  intros s1 s2 HS. constructor. cbn [fst snd]. split; [exact HS|]. rewrite (sr_px _ _ HS).
  destruct (spx s1) as [p|]; [|now apply run_none_ls]. apply lm_bind.
  refine (lm_mono _ _ _ _ _ (run_pfx_ls p c)). intros n ? <-.
  destruct n; [now apply run_none_ls|ls; exact I|ls; exact I].
Qed.

End Pair.

Section Entry.
Context {Q1 Q2 TS WB RB : Type}.
Variables (FL1 : Flavour Q1) (FL2 : Flavour Q2).
Variable dbg : bool.
Variable AW : option WB -> option WB -> Prop.
Variable AR : option RB -> option RB -> Prop.
Variables AO AI : Z -> Prop.
Hypothesis AW_none : AW None None.
Hypothesis AR_none : AR None None.
(** Relation of the flavour states; which flavour functions agree. *)
Variable RQ : Q1 -> Q2 -> Prop.
Variables bM bE bO bQ : bool.
Hypothesis R_begin : forall q1 q2, RQ q1 q2 -> RQ (begin_instruction FL1 q1) (begin_instruction FL2 q2).
Hypothesis R_mod : forall q1 q2, RQ q1 q2 -> RQ (flags_modified FL1 q1) (flags_modified FL2 q2).
Hypothesis R_mix : bM = true -> forall a l, memptr_mix FL1 a l = memptr_mix FL2 a l.
Hypothesis R_early : bE = true -> accept_irq_early FL1 = accept_irq_early FL2.
Hypothesis R_out : bO = true -> constant_out_data FL1 = constant_out_data FL2.
Hypothesis R_q : bQ = true -> forall q1 q2 a f, RQ q1 q2 -> get_q FL1 q1 a f = get_q FL2 q2 a f.

Notation lsim := (lsim (TS:=TS) AW AR AO AI).
Notation srel := (srel eq RQ).
Notation plain := (plain AO bM bE bO bQ).
(** ** Entry points *)
Definition crel (c1 : cpu Q1) (c2 : cpu Q2) : Prop :=
  exists q, RQ (flavour c1) q /\ c2 = withx (af c1) (pc c1) (prefix c1) q c1.
Definition resrel (r1 r2 : result WB RB) : Prop :=
  match r1, r2 with
  | Some BHalt, Some BHalt | None, None => True
  | Some (BWriteIo w), Some (BWriteIo w') => AW (Some w) (Some w')
  | Some (BWriteIo w), None => AW (Some w) None
  | None, Some (BWriteIo w) => AW None (Some w)
  | Some (BReti w), Some (BReti w') => AR (Some w) (Some w')
  | Some (BReti w), None => AR (Some w) None
  | None, Some (BReti w) => AR None (Some w)
  | _, _ => False
  end.
Lemma srel_store s1 s2 : srel s1 s2 -> crel (store_st s1) (store_st s2).
Proof.
  intros [(a & z & p & e & q & E & HA & HQ & <-) E1 E2 E3]. exists q. split; [exact HQ|].
  unfold store_st, set_flags, set8lo. rewrite E, E1, E2, E3. unfold withe at 1. cbn [af]. rewrite HA. reflexivity.
Qed.
Lemma srel_load c1 c2 : crel c1 c2 -> srel (load_st c1) (load_st c2).
Proof.
  intros (q & HQ & ->). constructor; try reflexivity.
  exists (af c1), (pc c1), (prefix c1), (last_ei c1), q. repeat split. exact HQ.
Qed.
(** Whatever the struct's flag byte, PC and prefix, the locals decide. *)
Lemma exec_st_ls code s1 s2 : plain code -> srel s1 s2 ->
  lsim (fun x y => crel (fst x) (fst y) /\ resrel (snd x) (snd y))
    (pbind (exec_code FL1 dbg code s1) (fun x => Ret (store_st (fst x), to_result (snd x))))
    (pbind (exec_code FL2 dbg code s2) (fun x => Ret (store_st (fst x), to_result (snd x)))).
Proof.
  intros HP HS.
  apply (lsim_bind _ _ _ _ _ _ _ _ _ _
    (exec_code_ls FL1 FL2 dbg AW AR AO AI eq (@eq_refl bool) RQ bM bE bO bQ R_begin R_mod R_mix R_early R_out R_q code HP s1 s2 HS)).
  intros [t1 r1] [t2 r2] [H1 H2]. cbn [fst snd] in *. constructor. cbn [fst snd]. split; [now apply srel_store|].
  destruct r1 as [[]|], r2 as [[]|]; cbn in *; auto; contradiction.
Qed.
Lemma execute_instruction_ls code c1 c2 : plain code -> crel c1 c2 ->
  lsim (fun x y => crel (fst x) (fst y) /\ resrel (snd x) (snd y))
    (execute_instruction FL1 dbg code c1) (execute_instruction FL2 dbg code c2).
Proof.
  intros HP HC. unfold execute_instruction. apply exec_st_ls; [exact HP|]. apply srel_load.
  destruct HC as (q & HQ & ->). exists q. split; [exact HQ|reflexivity].
Qed.

(** The helpers that work on the struct. *)
Lemma push16_ls p c1 c2 : crel c1 c2 ->
  lsim (fun x y => crel (fst x) (fst y)) (on_cpu (push16 p) c1) (on_cpu (push16 p) c2).
Proof.
  intros (q & HQ & ->). unfold on_cpu, push16, push2. cbn. repeat (constructor; intros).
  exists q. split; [exact HQ|reflexivity].
Qed.
Lemma fetch_ls p c1 c2 : crel c1 c2 ->
  lsim (fun x y => crel (fst x) (fst y) /\ snd y = snd x /\ AO (snd (snd x)))
    (on_cpu (fetch_next_opcode p) c1) (on_cpu (fetch_next_opcode p) c2).
Proof.
  intros (q & HQ & ->). unfold on_cpu, fetch_next_opcode. cbn. repeat (constructor; intros).
  - exists q. split; [exact HQ|reflexivity].
  - assumption.
Qed.
Definition res_ls (x : cpu Q1 * result WB RB) (y : cpu Q2 * result WB RB) : Prop :=
  crel (fst x) (fst y) /\ resrel (snd x) (snd y).
Lemma irq_no_check_ls c1 c2 : (im c1 = Mode0 -> forall v, AI v -> plain v) -> crel c1 c2 ->
  lsim res_ls (irq_no_check FL1 dbg c1) (irq_no_check FL2 dbg c2).
Proof.
  intros HV HC. unfold irq_no_check. cbv zeta.
  assert (G : forall c1' c2' p ir, im c1' = im c1 -> im c2' = im c1 -> crel c1' c2' -> 
    lsim res_ls
      (AddIrq p (fun ts => IrqData p ts (fun vector ws =>
        let k := match im c1' with
          | Mode0 => execute_instruction FL1 dbg vector c1'
          | Mode1 => execute_instruction FL1 dbg RST_38H_OPCODE c1'
          | Mode2 => AddNoMreq ir 1 (pbind (on_cpu (push16 p) c1') (fun x =>
              execute_instruction FL1 dbg JP_OPCODE (set_pc (Z.lor (Z.land ir 0xFF00) vector) (fst x)))) end in
        match ws with Some n => AddWait p n k | None => k end)))
      (AddIrq p (fun ts => IrqData p ts (fun vector ws =>
        let k := match im c2' with
          | Mode0 => execute_instruction FL2 dbg vector c2'
          | Mode1 => execute_instruction FL2 dbg RST_38H_OPCODE c2'
          | Mode2 => AddNoMreq ir 1 (pbind (on_cpu (push16 p) c2') (fun x =>
              execute_instruction FL2 dbg JP_OPCODE (set_pc (Z.lor (Z.land ir 0xFF00) vector) (fst x)))) end in
        match ws with Some n => AddWait p n k | None => k end)))).
  { intros c1' c2' p ir E1 E2 HC'. constructor. intros ts. constructor. intros v ws HA. cbv zeta.
    assert (K : lsim res_ls
      (match im c1' with
          | Mode0 => execute_instruction FL1 dbg v c1'
          | Mode1 => execute_instruction FL1 dbg RST_38H_OPCODE c1'
          | Mode2 => AddNoMreq ir 1 (pbind (on_cpu (push16 p) c1') (fun x =>
              execute_instruction FL1 dbg JP_OPCODE (set_pc (Z.lor (Z.land ir 0xFF00) v) (fst x)))) end)
      (match im c2' with
          | Mode0 => execute_instruction FL2 dbg v c2'
          | Mode1 => execute_instruction FL2 dbg RST_38H_OPCODE c2'
          | Mode2 => AddNoMreq ir 1 (pbind (on_cpu (push16 p) c2') (fun x =>
              execute_instruction FL2 dbg JP_OPCODE (set_pc (Z.lor (Z.land ir 0xFF00) v) (fst x)))) end)).
    { rewrite E1, E2. destruct (im c1).
      - apply execute_instruction_ls; auto.
      - apply execute_instruction_ls; [exact I|exact HC'].
      - constructor. apply (lsim_bind _ _ _ _ _ _ _ _ _ _ (push16_ls p _ _ HC')). intros x y HX.
        apply execute_instruction_ls; [exact I|]. destruct HX as (q & HQ & ->). exists q. split; [exact HQ|reflexivity]. }
    destruct ws; [constructor; exact K|exact K]. }
  destruct HC as (q & HQ & ->).
  change (halt (inc_r (disable_interrupts (withx (af c1) (pc c1) (prefix c1) q c1)))) with (halt c1).
  change (halt (inc_r (disable_interrupts c1))) with (halt c1).
  destruct (halt c1).
  all: apply G; [reflexivity..|]; exists q; split; [exact HQ|reflexivity].
Qed.
Lemma nmi_no_check_ls c1 c2 : crel c1 c2 ->
  lsim crel (nmi_no_check FL1 c1) (nmi_no_check FL2 c2).
Proof.
  intros (q & HQ & ->). unfold nmi_no_check, on_cpu, push16, push2. cbn. destruct (halt c1); cbn; repeat (constructor; intros).
  all: eexists; split; [apply R_begin; exact HQ|reflexivity].
Qed.
Lemma nmi_ls c1 c2 : crel c1 c2 ->
  lsim (fun x y => crel (fst x) (fst y) /\ snd y = snd x) (nmi FL1 c1) (nmi FL2 c2).
Proof.
  intros HC. unfold nmi. assert (E : is_int_allowed (prefix c2) (last_ei c2) = is_int_allowed (prefix c1) (last_ei c1))
    by (destruct HC as (q & _ & ->); reflexivity).
  rewrite E. clear E. destruct (is_int_allowed (prefix c1) (last_ei c1)); [|constructor; auto].
  apply (lsim_bind _ _ _ _ _ _ _ _ _ _ (nmi_no_check_ls _ _ HC)). intros x y H. constructor. auto.
Qed.
Lemma irq_ls c1 c2 : (im c1 = Mode0 -> forall v, AI v -> plain v) -> crel c1 c2 ->
  lsim (fun x y => crel (fst x) (fst y) /\
    match snd x, snd y with Some r1, Some r2 => resrel r1 r2 | None, None => True | _, _ => False end)
    (irq FL1 dbg c1) (irq FL2 dbg c2).
Proof.
  intros HV HC. unfold irq. assert (E : is_irq_allowed c2 = is_irq_allowed c1)
    by (destruct HC as (q & _ & ->); reflexivity).
  rewrite E. clear E. destruct (is_irq_allowed c1); [|constructor; split; [exact HC|exact I]].
  apply (lsim_bind _ _ _ _ _ _ _ _ _ _ (irq_no_check_ls _ _ HV HC)). intros x y H. constructor. exact H.
Qed.
Lemma test_irq_ls {A B} (R : A -> B -> Prop) b k1 k2 : (forall x, lsim R (k1 x) (k2 x)) -> lsim R (test_irq b k1) (test_irq b k2).
Proof. intros H. unfold test_irq. destruct b; [|apply H]. constructor. intros t. constructor. exact H. Qed.
Lemma execute_next_ls c1 c2 : (forall v, AO v -> plain v) -> (im c1 = Mode0 -> forall v, AI v -> plain v) -> crel c1 c2 ->
  lsim res_ls (execute_next FL1 dbg c1) (execute_next FL2 dbg c2).
Proof.
  intros HO HV HC. unfold execute_next. assert (E : is_irq_allowed c2 = is_irq_allowed c1)
    by (destruct HC as (q & _ & ->); reflexivity).
  rewrite E. apply test_irq_ls. intros [|]; [now apply irq_no_check_ls|].
  assert (E2 : halt c2 = halt c1) by (destruct HC as (q & _ & ->); reflexivity).
  assert (E3 : pc c2 = pc c1) by (destruct HC as (q & _ & ->); reflexivity).
  rewrite E2, E3. destruct (halt c1).
  - constructor. intros t. constructor. split; [|exact I]. destruct HC as (q & HQ & ->). exists q. split; [exact HQ|reflexivity].
  - apply (lsim_bind _ _ _ _ _ _ _ _ _ _ (fetch_ls _ _ _ HC)). intros [c1' [p v]] [c2' x] (HC' & E' & HA). cbn [fst snd] in *. subst x.
    cbn [fst snd]. apply execute_instruction_ls; [auto|]. destruct HC' as (q & HQ & ->). exists q. split; [exact HQ|reflexivity].
Qed.
End Entry.

(** One flavour, equal answers: the struct's flag byte, PC and prefix do not matter to a running instruction. *)
Section Same.
Context {Q TS WB RB : Type}.
Variables (FL : Flavour Q) (dbg : bool).
Lemma crel_eq (c1 c2 : cpu Q) : crel eq c1 c2 -> c2 = c1.
Proof. intros (q & <- & ->). now destruct c1. Qed.
Lemma resrel_eq (r1 r2 : result WB RB) : resrel eq eq r1 r2 -> r2 = r1.
Proof. destruct r1 as [[]|], r2 as [[]|]; cbn; try contradiction; congruence. Qed.
Definition same_st (s1 s2 : @st Q) : Prop :=
  sfl s2 = sfl s1 /\ spc s2 = spc s1 /\ spx s2 = spx s1 /\
  exists a z p, sc s2 = withx a z p (flavour (sc s1)) (sc s1) /\ hi8 a = hi8 (af (sc s1)).
Lemma same_srel s1 s2 : same_st s1 s2 -> srel eq eq s1 s2.
Proof. intros (H1 & H2 & H3 & a & z & p & E & HA). constructor; auto. exists a, z, p, (last_ei (sc s1)), (flavour (sc s1)). auto. Qed.
Lemma plain_true (AO : Z -> Prop) code : plain AO true true true true code.
Proof. unfold plain, plain_ed. destruct (decode_none code); auto. intros v _. destruct (decode_ed v); auto. Qed.
Lemma exec_same code s1 s2 : same_st s1 s2 ->
  forall BS CK (Hs : host TS WB RB BS CK) b k,
  let run s := runl Hs (pbind (exec_code FL dbg code s) (fun x => Ret (store_st (fst x), to_result (snd x)))) b k in
  run s1 = run s2.
Proof.
  assert (K : forall t1 t2, srel eq eq t1 t2 -> forall BS CK (Hs : host TS WB RB BS CK) b k y,
    let run s := runl Hs (pbind (exec_code FL dbg code s) (fun x => Ret (store_st (fst x), to_result (snd x)))) b k in
    run t1 = Some y -> run t2 = Some y).
  { intros t1 t2 HS BS CK Hs b k [[[[x r] b'] k'] l] run E. subst run. cbv beta in *.
    pose proof (exec_st_ls (TS:=TS) (WB:=WB) (RB:=RB) FL FL dbg eq eq (fun _ => True) (fun _ => True) eq true true true true
      ltac:(congruence) ltac:(congruence) ltac:(reflexivity) ltac:(reflexivity) ltac:(reflexivity) ltac:(congruence)
      code t1 t2 (plain_true _ _) HS) as L.
    destruct (lsim_runl _ _ _ _ _ L _ _ Hs b k _ _ _ _ E) as ([x' r'] & E' & H1 & H2).
    { apply Forall_forall. intros e _. now destruct e. }
    cbn [fst snd] in *. apply crel_eq in H1. apply resrel_eq in H2. subst. exact E'. }
  intros HS BS CK Hs b k run. subst run. cbv beta.
  assert (HS' : same_st s2 s1).
  { destruct HS as (H1 & H2 & H3 & a & z & p & E & HA). split; [congruence|]. split; [congruence|]. split; [congruence|].
    exists (af (sc s1)), (pc (sc s1)), (prefix (sc s1)). rewrite E. split; [now destruct (sc s1)|]. now symmetry. }
  destruct (runl Hs _ b k) as [y|] eqn:E1 in |- *; destruct (runl Hs (pbind (exec_code FL dbg code s2) _) b k) as [z|] eqn:E2.
  - rewrite (K _ _ (same_srel _ _ HS) _ _ Hs b k _ E1) in E2. congruence.
  - rewrite (K _ _ (same_srel _ _ HS) _ _ Hs b k _ E1) in E2. congruence.
  - rewrite (K _ _ (same_srel _ _ HS') _ _ Hs b k _ E2) in E1. congruence.
  - reflexivity.
Qed.
End Same.
