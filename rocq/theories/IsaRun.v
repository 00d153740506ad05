(** The instruction-set refinement for runs on an arbitrary host, and on hosts whose memory is RAM. *)
From Coq Require Import ZArith Bool List Lia.
From Verif Require Import Base Flags Ops Parse Cpu Flavours Prog Trace Internal Instr Exec Range SafeRun Clock ClockProofs
  SpecAlu SpecState SpecIsa SpecCycles IsaLink IsaCycles IsaExec.
Import ListNotations.
Open Scope Z_scope.
Ltac Zify.zify_post_hook ::= Z.div_mod_to_equations.

(** On every host [p] completes; its result, the bus accesses and the machine cycles satisfy [P]. *)
Definition runs {TS WB RB A} (p : prog TS WB RB A) (P : A -> list (bev WB RB) -> list tev -> Prop) : Prop :=
  forall BS CK (Hs : host TS WB RB BS CK) (b : BS) (k : CK),
  exists x b' k' l, runl Hs p b k = Some (x, b', k', l) /\
    Forall data_byte (buses l) /\ P x (buses l) (clocks l).
(** The bus accesses, the machine cycles, the final state and the result are those of [t]. *)
Definition as_spec {Q T WB RB} (absq : Q -> T) (t : cyc WB RB (arch T * outcome WB RB)) (c' : cpu Q)
    (r : result WB RB) (bl : list (bev WB RB)) (cl : list tev) : Prop :=
  wf c' /\ exists o, r = result_of o /\ accepts t bl cl (abs absq c', o).
Definition follows {Q T TS WB RB} (absq : Q -> T) (p : prog TS WB RB (cpu Q * result WB RB))
    (t : cyc WB RB (arch T * outcome WB RB)) : Prop :=
  runs p (fun x bl cl => as_spec absq t (fst x) (snd x) bl cl).
(** The CPUs the crate provides and the chips they model. *)
Inductive models : forall {Q T}, Flavour Q -> chip T -> (Q -> T) -> Prop :=
| m_nmos : models NMOS nmos q_modified
| m_bm1 : models BM1 bm1 q_modified
| m_cmos : models CMOS cmos (fun u => u).
Lemma models_ok {Q T} (FL : Flavour Q) (ch : chip T) absq : models FL ch absq -> chip_ok FL ch absq.
Proof. intros []; [apply nmos_ok|apply bm1_ok|apply cmos_ok]. Qed.

(** [mo b] is the memory content in bus state [b]; memory behaves as RAM whatever the devices do. *)
Record ram_host {TS WB RB BS CK} (Hs : host TS WB RB BS CK) (mo : BS -> mem) : Prop := mkRam {
  rh_byte : forall b a, byte (mo b a);
  rh_rd : forall b a t, snd (h_read_mem Hs b a t) = mo b a /\ forall x, mo (fst (h_read_mem Hs b a t)) x = mo b x;
  rh_rd16 : forall b a t, snd (h_read_mem16 Hs b a t) = mo b a + 256 * mo b (u16 (a + 1)) /\
    forall x, mo (fst (h_read_mem16 Hs b a t)) x = mo b x;
  rh_op : forall b a i t, snd (h_read_opcode Hs b a i t) = mo b a /\
    forall x, mo (fst (h_read_opcode Hs b a i t)) x = mo b x;
  rh_wr : forall b a v t x, mo (h_write_mem Hs b a v t) x = mupd (mo b) a (u8 v) x;
  rh_dbg : forall b a x, mo (fst (h_read_debug Hs b a)) x = mo b x;
  rh_in : forall b p t x, mo (fst (h_read_io Hs b p t)) x = mo b x;
  rh_out : forall b p v t x, mo (fst (h_write_io Hs b p v t)) x = mo b x;
  rh_irq : forall b t x, mo (fst (h_is_irq Hs b t)) x = mo b x;
  rh_ack : forall b a t x, mo (fst (h_irq_data Hs b a t)) x = mo b x;
  rh_reti : forall b a t x, mo (fst (h_reti Hs b a t)) x = mo b x }.
(** The bus accesses [bl] turn memory [m] into [m'] and read what was last written. *)
Fixpoint ram_log {WB RB} (m : mem) (bl : list (bev WB RB)) (m' : mem) : Prop :=
  match bl with
  | [] => forall x, m' x = m x
  | VOp a _ v :: bl | VRd a v :: bl => v = m a /\ ram_log m bl m'
  | VWr a v :: bl => ram_log (mupd m a (v mod 256)) bl m'
  | _ :: bl => ram_log m bl m'
  end.
Lemma ram_log_ext {WB RB} (bl : list (bev WB RB)) : forall m1 m2 m', (forall x, m1 x = m2 x) ->
  ram_log m1 bl m' -> ram_log m2 bl m'.
Proof.
  induction bl as [|e bl IH]; cbn; intros m1 m2 m' He H.
  - intros x. rewrite <- He. apply H.
  - destruct e; try (destruct H as [-> H]; split; [apply He|]); try (now apply (IH m1)).
    apply (IH (mupd m1 a (v mod 256))); [|exact H]. intros x. unfold mupd. destruct (x =? a); [reflexivity|apply He].
Qed.
Lemma rd16_split x y : byte x -> byte y -> u16 (x + 256 * y) mod 256 = x /\ u16 (x + 256 * y) / 256 = y.
Proof.
  unfold byte, u16. intros. assert (E : (x + 256 * y) mod 65536 = x + 256 * y) by (apply Z.mod_small; lia).
  rewrite E.  split; lia.
Qed.
Lemma u8_byte_id x : byte x -> u8 x = x.
Proof. intros H. apply Z.mod_small. exact H. Qed.
Lemma cons_log_inv {TS WB RB A BS CK} (e : ev TS WB RB) (x : option (A * BS * CK * list (ev TS WB RB))) a b c l :
  cons_log e x = Some (a, b, c, l) -> exists l', x = Some (a, b, c, l') /\ l = e :: l'.
Proof. destruct x as [[[[? ?] ?] ?]|]; [|discriminate]. intros [= -> -> -> <-]. eauto. Qed.
Lemma ram_log_app {WB RB} (b1 b2 : list (bev WB RB)) : forall m m1 m2,
  ram_log m b1 m1 -> ram_log m1 b2 m2 -> ram_log m (b1 ++ b2) m2.
Proof.
  induction b1 as [|e b1 IH]; cbn; intros m m1 m2 H1 H2.
  - now apply (ram_log_ext b2 m1).
  - destruct e; try (destruct H1 as [-> H1]; split; [reflexivity|]); eauto.
Qed.
Lemma runl_ram {TS WB RB BS CK A} (Hs : host TS WB RB BS CK) mo (p : prog TS WB RB A) : ram_host Hs mo ->
  forall b k a b' k' l, runl Hs p b k = Some (a, b', k', l) -> ram_log (mo b) (buses l) (mo b').
Proof.
  intros R. induction p; intros b0 k0 a0 b' k' l0 E; cbn [runl] in E.
  1: { injection E as <- <- <- <-. cbn. reflexivity. }
  1: discriminate.
  all: repeat match type of E with context [let (_, _) := ?x in _] => let F := fresh "F" in destruct x eqn:F end.
  all: cbv zeta in E; apply cons_log_inv in E; destruct E as (l' & E & ->).
  all: change (buses (?e :: l')) with (bus1 e ++ buses l').
  all: first [ apply H in E | apply IHp in E ].
  all: cbn [bus1 app]; try exact E.
  all: cbn [ram_log].
  all: try (apply (ram_log_ext (buses l') (mo b)); [|exact E]; intros x;
    match type of F with
    | h_read_io _ ?b ?a ?t = _ => rewrite <- (rh_in _ _ R b a t)
    | h_write_io _ ?b ?a ?v ?t = _ => rewrite <- (rh_out _ _ R b a v t)
    | h_is_irq _ ?b ?t = _ => rewrite <- (rh_irq _ _ R b t)
    | h_irq_data _ ?b ?a ?t = _ => rewrite <- (rh_ack _ _ R b a t)
    | h_reti _ ?b ?a ?t = _ => rewrite <- (rh_reti _ _ R b a t)
    | h_read_debug _ ?b ?a = _ => rewrite <- (rh_dbg _ _ R b a)
    end; rewrite F; reflexivity).
  - destruct (rh_rd _ _ R b0 addr ts) as [V M]. rewrite F in V, M. cbn [fst snd] in V, M. subst z.
    split; [apply u8_byte_id, R|]. now apply (ram_log_ext _ (mo b)).
  - destruct (rh_rd16 _ _ R b0 addr ts) as [V M]. rewrite F in V, M. cbn [fst snd] in V, M. subst z.
    destruct (rd16_split (mo b0 addr) (mo b0 (u16 (addr + 1))) (rh_byte _ _ R _ _) (rh_byte _ _ R _ _)) as [V1 V2].
    rewrite V1, V2. split; [reflexivity|]. split; [reflexivity|]. now apply (ram_log_ext _ (mo b)).
  - destruct (rh_op _ _ R b0 pc ir ts) as [V M]. rewrite F in V, M. cbn [fst snd] in V, M. subst z.
    split; [apply u8_byte_id, R|]. now apply (ram_log_ext _ (mo b)).
  - apply (ram_log_ext _ (mo (h_write_mem Hs b0 addr v ts))); [|exact E]. apply R.
Qed.

(** Answers are bytes. *)
Lemma runl_bytes {TS WB RB BS CK A} (Hs : host TS WB RB BS CK) (p : prog TS WB RB A) :
  forall b k a b' k' l, runl Hs p b k = Some (a, b', k', l) -> Forall data_byte (buses l).
Proof.
  induction p; intros b0 k0 a0 b' k' l0 E; cbn [runl] in E.
  1: { injection E as <- <- <- <-. constructor. }
  1: discriminate.
  all: repeat match type of E with context [let (_, _) := ?x in _] => let F := fresh "F" in destruct x eqn:F end.
  all: cbv zeta in E; apply cons_log_inv in E; destruct E as (l' & E & ->).
  all: change (buses (?e :: l')) with (bus1 e ++ buses l').
  all: first [ apply H in E | apply IHp in E ].
  all: cbn [bus1 app]; repeat (apply Forall_cons; [try exact I; unfold data_byte|]); try exact E.
  all: try apply u8_byte'.
  all: pose proof (u16_word' z) as HW; unfold word, isbyte in *; lia.
Qed.

(** [TsCounter]. *)
Record ts_clock {TS' WB RB BS} (T : itype) (Hs : host TS' WB RB BS Z) : Prop := mkTsClock {
  tc_irq : forall c a, fst (h_add_irq Hs c a) = wrap T (c + 6);
  tc_nomreq : forall c a n, h_add_no_mreq Hs c a n = wrap T (c + n);
  tc_m1 : forall c a, fst (h_add_m1 Hs c a) = wrap T (c + 4);
  tc_mreq : forall c a, fst (h_add_mreq Hs c a) = wrap T (c + 3);
  tc_io : forall c a, fst (h_add_io Hs c a) = wrap T (c + 4);
  tc_wait : forall c a n, h_add_wait Hs c a n = wrap T (c + n) }.
Lemma ts_host_clock {WB RB BS} T lim rdb wrm rio wio irq vec rti :
  ts_clock (WB:=WB) (RB:=RB) (BS:=BS) T (ts_host T lim rdb wrm rio wio irq vec rti).
Proof. constructor; reflexivity. Qed.
Lemma tsum_cons e l : tsum (e :: l) = tstates e + tsum l.
Proof. reflexivity. Qed.
Lemma runl_ts {TS WB RB BS A} T (Hs : host TS WB RB BS Z) (p : prog TS WB RB A) : 0 < bits T -> ts_clock T Hs ->
  forall b k a b' k' l, in_type T k -> runl Hs p b k = Some (a, b', k', l) -> k' = wrap T (k + tsum (clocks l)).
Proof.
  intros HT C. induction p; intros b0 k0 a0 b' k' l0 Hk E; cbn [runl] in E.
  1: { injection E as <- <- <- <-. apply wrap_unique; [exact HT|exact Hk|]. cbn. now rewrite Z.add_0_r. }
  1: discriminate.
  all: repeat match type of E with context [let (_, _) := ?x in _] => let F := fresh "F" in destruct x eqn:F end.
  all: cbv zeta in E; apply cons_log_inv in E; destruct E as (l' & E & ->).
  all: change (clocks (?e :: l')) with (clk1 e ++ clocks l'); cbn [clk1 app].
  all: try match type of F with
    | h_add_irq _ ?c ?a = _ => pose proof (tc_irq _ _ C c a) as G; rewrite F in G; cbn [fst] in G; subst
    | h_add_m1 _ ?c ?a = _ => pose proof (tc_m1 _ _ C c a) as G; rewrite F in G; cbn [fst] in G; subst
    | h_add_mreq _ ?c ?a = _ => pose proof (tc_mreq _ _ C c a) as G; rewrite F in G; cbn [fst] in G; subst
    | h_add_io _ ?c ?a = _ => pose proof (tc_io _ _ C c a) as G; rewrite F in G; cbn [fst] in G; subst
    end.
  all: try rewrite (tc_nomreq _ _ C) in E; try rewrite (tc_wait _ _ C) in E.
  all: first [ apply H in E | apply IHp in E ]; try assumption; try now apply wrap_range.
  all: rewrite ?tsum_cons; cbn [tstates]; rewrite E, ?wrap_add by assumption; f_equal; lia.
Qed.

(** A run on a RAM host. *)
Lemma runs_ram {TS WB RB BS CK A} (p : prog TS WB RB A) R (Hs : host TS WB RB BS CK) mo b k :
  runs p R -> ram_host Hs mo ->
  exists x b' k' l, runl Hs p b k = Some (x, b', k', l) /\ Forall data_byte (buses l) /\
    ram_log (mo b) (buses l) (mo b') /\ R x (buses l) (clocks l).
Proof.
  intros H HR. destruct (H BS CK Hs b k) as (x & b' & k' & l & E & D & P).
  exists x, b', k', l. split; [exact E|]. split; [exact D|]. split; [|exact P]. exact (runl_ram Hs mo p HR _ _ _ _ _ _ E).
Qed.
Lemma ram_demo lim : ram_host (demo lim) (fun m a => u8 (m a)).
Proof.
  constructor; try reflexivity; try (intros; split; reflexivity).
  - intros. apply u8_byte'.
  - intros. cbn. unfold mupd. now destruct (x =? a).
Qed.

(** ** The theorems *)
Section Thms.
Context {Q T TS WB RB : Type}.
Variables (FL : Flavour Q) (ch : chip T) (absq : Q -> T).
Hypothesis OK : chip_ok FL ch absq.
Notation prog := (prog TS WB RB).
Notation runs := (runs (TS:=TS) (WB:=WB) (RB:=RB)).
Notation follows := (follows (TS:=TS) (WB:=WB) (RB:=RB)).

Lemma wpl_runs {A} (p : prog A) P (R : A -> list (bev WB RB) -> list tev -> Prop) :
  wpl p P -> (forall x l, P x l -> R x (buses l) (clocks l)) -> runs p R.
Proof.
  intros H HR BS CK Hs b k. destruct (wpl_run Hs p _ b k H) as (x & b' & k' & l & E & HP).
  exists x, b', k', l. split; [exact E|]. split; [exact (runl_bytes _ _ _ _ _ _ _ _ E)|]. now apply HR.
Qed.
Lemma follows_post (p : prog (cpu Q * result WB RB)) t : wpl p (post absq t) -> follows absq p t.
Proof. intros H. apply (wpl_runs _ _ _ H). intros x l (W & o & Hr & HA). split; eauto. Qed.
Theorem execute_instruction_follows dbg code (c : cpu Q) : byte code -> wf c ->
  follows absq (execute_instruction FL dbg code c) (exec ch code (abs absq c)).
Proof. intros. apply follows_post. now apply execute_instruction_isa. Qed.
Theorem execute_next_follows dbg (c : cpu Q) : wf c ->
  follows absq (execute_next FL dbg c) (next ch (abs absq c)).
Proof. intros. apply follows_post. now apply execute_next_isa. Qed.
Lemma allowed_abs (c : cpu Q) : is_irq_allowed c = int_enabled (abs absq c).
Proof.
  unfold is_irq_allowed, is_int_allowed, int_enabled, nmi_enabled. cbn [abs aIFF1 aEI aPX].
  destruct (prefix c), (last_ei c); reflexivity.
Qed.
Lemma nmi_allowed_abs (c : cpu Q) : is_int_allowed (prefix c) (last_ei c) = nmi_enabled (abs absq c).
Proof.
  unfold is_int_allowed, nmi_enabled. cbn [abs aEI aPX]. destruct (prefix c), (last_ei c); reflexivity.
Qed.
Theorem irq_follows dbg (c : cpu Q) : wf c ->
  runs (irq FL dbg c) (fun x bl cl =>
    if int_enabled (abs absq c)
    then exists r, snd x = Some r /\ as_spec absq (accept_int ch (abs absq c)) (fst x) r bl cl
    else x = (c, None) /\ bl = [] /\ cl = []).
Proof.
  intros Hw. unfold irq. rewrite allowed_abs. destruct (int_enabled (abs absq c)).
  - apply (wpl_runs _ (fun x l => exists r, snd x = Some r /\ as_spec absq (accept_int ch (abs absq c)) (fst x) r (buses l) (clocks l))); [|auto].
    apply wpl_bind. refine (wpl_mono _ _ _ _ (irq_no_check_isa FL ch absq OK dbg c Hw)).
    intros x l (W & HA). cbn [wpl fst snd]. rewrite app_nil_r. exists (snd x). split; [reflexivity|]. split; assumption.
  - apply (wpl_runs _ (fun x l => x = (c, None) /\ l = [])); [cbn; auto|]. intros x l (-> & ->). auto.
Qed.
Theorem nmi_follows (c : cpu Q) : wf c ->
  runs (nmi FL c) (fun x bl cl =>
    if nmi_enabled (abs absq c)
    then snd x = true /\ as_spec absq (accept_nmi ch (abs absq c)) (fst x) None bl cl
    else x = (c, false) /\ bl = [] /\ cl = []).
Proof.
  intros Hw. unfold nmi. rewrite nmi_allowed_abs.
  destruct (nmi_enabled (abs absq c)).
  - apply (wpl_runs _ (fun x l => snd x = true /\ as_spec absq (accept_nmi ch (abs absq c)) (fst x) None (buses l) (clocks l))); [|auto].
    apply wpl_bind. refine (wpl_mono _ _ _ _ (nmi_no_check_isa FL ch absq OK c Hw)).
    intros c' l (W & HA). cbn [wpl fst snd]. rewrite app_nil_r. split; [reflexivity|]. split; [exact W|].
    exists ONext. split; [reflexivity|exact HA].
  - apply (wpl_runs _ (fun x l => x = (c, false) /\ l = [])); [cbn; auto|]. intros x l (-> & ->). auto.
Qed.
Theorem execute_next_cycles dbg (c : cpu Q) : wf c ->
  runs (execute_next FL dbg c) (fun x bl cl =>
    as_spec absq (next ch (abs absq c)) (fst x) (snd x) bl cl /\ tsum cl = step_time (abs absq c) bl + waits bl).
Proof.
  intros Hw BS CK Hs b k. destruct (execute_next_follows dbg c Hw BS CK Hs b k) as (x & b' & k' & l & E & D & HS).
  exists x, b', k', l. split; [exact E|]. split; [exact D|]. split; [exact HS|].
  destruct HS as (_ & o & _ & HA). exact (next_documented ch (abs absq c) _ _ _ (wf_bc _ Hw) D HA).
Qed.
(** Published times on a [TsCounter]. *)
Theorem execute_next_time dbg BS W (Hs : host TS WB RB BS Z) b k (c : cpu Q) : wf c ->
  0 < bits W -> ts_clock W Hs -> in_type W k ->
  exists x b' l, runl Hs (execute_next FL dbg c) b k =
    Some (x, b', wrap W (k + (step_time (abs absq c) (buses l) + waits (buses l))), l).
Proof.
  intros Hw HT C Hk. destruct (execute_next_follows dbg c Hw BS Z Hs b k) as (x & b' & k' & l & E & D & W' & o & _ & HA).
  exists x, b', l. rewrite E. rewrite (runl_ts W Hs _ HT C b k x b' k' l Hk E).
  rewrite (next_documented ch (abs absq c) _ _ _ (wf_bc _ Hw) D HA). reflexivity.
Qed.
Theorem execute_instruction_time dbg code BS W (Hs : host TS WB RB BS Z) b k (c : cpu Q) : byte code -> wf c ->
  0 < bits W -> ts_clock W Hs -> in_type W k ->
  exists x b' l, runl Hs (execute_instruction FL dbg code c) b k =
    Some (x, b', wrap W (k + (documented (prefix c) code (buses l) (abs absq c) - 4 + waits (buses l))), l).
Proof.
  intros Hc Hw HT C Hk. destruct (execute_instruction_follows dbg code c Hc Hw BS Z Hs b k) as (x & b' & k' & l & E & D & W' & o & _ & HA).
  exists x, b', l. rewrite E. rewrite (runl_ts W Hs _ HT C b k x b' k' l Hk E).
  apply exec_documented in HA; [|exact Hc|exact (wf_bc _ Hw)|exact D].
  change (documented _ code _ _) with (documented (prefix c) code (buses l) (abs absq c)) in HA at 1.
  do 4 f_equal. f_equal. lia.
Qed.
Theorem irq_time dbg BS W (Hs : host TS WB RB BS Z) b k (c : cpu Q) : wf c -> is_irq_allowed c = true ->
  0 < bits W -> ts_clock W Hs -> in_type W k ->
  exists x b' l, runl Hs (irq FL dbg c) b k =
    Some (x, b', wrap W (k + (int_time (abs absq c) (buses l) + waits (buses l))), l).
Proof.
  intros Hw HI HT C Hk. destruct (irq_follows dbg c Hw BS Z Hs b k) as (x & b' & k' & l & E & D & P).
  rewrite <- allowed_abs, HI in P. destruct P as (r & _ & _ & o & _ & HA).
  exists x, b', l. rewrite E. rewrite (runl_ts W Hs _ HT C b k x b' k' l Hk E).
  rewrite (int_documented ch (abs absq c) _ _ _ (wf_bc _ Hw) D HA). reflexivity.
Qed.
Theorem nmi_time BS W (Hs : host TS WB RB BS Z) b k (c : cpu Q) : wf c -> is_nmi_allowed c = true ->
  0 < bits W -> ts_clock W Hs -> in_type W k ->
  exists x b' l, runl Hs (nmi FL c) b k = Some (x, b', wrap W (k + 11), l).
Proof.
  intros Hw HI HT C Hk. destruct (nmi_follows c Hw BS Z Hs b k) as (x & b' & k' & l & E & D & P).
  unfold is_nmi_allowed in HI. rewrite <- nmi_allowed_abs, HI in P. destruct P as (_ & _ & o & _ & HA).
  exists x, b', l. rewrite E. rewrite (runl_ts W Hs _ HT C b k x b' k' l Hk E).
  rewrite (nmi_documented ch _ _ _ _ HA). reflexivity.
Qed.
End Thms.
