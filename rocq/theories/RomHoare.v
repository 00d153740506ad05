(** Machine code in the ROM of the example computer on the specification [SpecIsa]: every run from a state comes to a state satisfying
    [P], unless an interrupt is accepted on the way or a device panics. With [q] interrupts cannot be accepted on the way. *)
From Coq Require Import ZArith Bool List Lia.
From Verif Require Import Base Flags Ops Parse Cpu Flavours Prog Trace Internal Instr Exec Range Clock SpecCycles RalMemory RalBus SpecRal RalMemProofs
  RalBusProofs SpecAlu SpecState SpecIsa IsaLink IsaRun Steps RomImage SpecRom.
Import ListNotations.
Open Scope Z_scope.

Lemma kernel_bytes i : 0 <= nth i kernel 255 < 256.
Proof.
  assert (F : Forall (fun x => 0 <= x < 256) kernel).
  { assert (B : forallb (fun x => (0 <=? x) && (x <? 256)) kernel = true) by (vm_compute; reflexivity).
    rewrite forallb_forall in B. apply Forall_forall. intros x Hx. specialize (B x Hx). apply andb_prop in B. lia. }
  destruct (nth_in_or_default i kernel 255) as [I|E]; [|lia]. rewrite Forall_forall in F. now apply F.
Qed.

Section Hoare.
Context {T WB RB : Type}.
Variable ch : SpecIsa.chip T.
Variable q : bool.
Variable top : Z.
Notation tree := (cyc WB RB (arch T * outcome WB RB)).
(** [r]: an op-code of the ROM has been fetched, the kernel's page is there. *)
Definition rdable (r : bool) (a : Z) : Prop := 0 <= a < 0x10000 /\ (a < 0x2000 \/ 0x4000 <= a \/ r = true).
Definition wrable (r : bool) (a : Z) : Prop := (if r then 0x2000 else 0x4000) <= a < top.

Fixpoint wpr {X} (r : bool) (t : cyc WB RB X) (m : mem) (o : list io) (K : X -> mem -> list io -> Prop) : Prop :=
  match t with
  | SRet x => K x m o
  | SM1 a _ k => 0 <= a < 0x2000 /\ wpr true (k (m a)) m o K
  | SRd a k => rdable r a /\ wpr r (k (m a)) m o K
  | SIdleM1 _ k | SSkip _ k | SX _ _ k => wpr r k m o K
  | SWr a v k => wrable r a /\ wpr r k (mupd m a (v mod 256)) o K
  | SIn p k => forall v, 0 <= v < 256 -> wpr r (k v) m (o ++ [IIn p v]) K
  | SOut p v k => forall b, wpr r (k b) m (o ++ [IOut p v]) K
  | SIrq k => q = false /\ wpr r (k false) m o K
  | SReti _ k => forall b, wpr r (k b) m (o ++ [IReti]) K
  | SAck _ k => forall v, 0 <= v < 256 -> wpr r (k v) m (o ++ [IAck v]) K
  end.

Section Goes.
Variable P : arch T -> mem -> list io -> Prop.
Inductive goes : arch T -> mem -> list io -> Prop :=
| g_now a m o : P a m o -> goes a m o
| g_step a m o : on false (next ch a) m o -> goes a m o
with on : bool -> tree -> mem -> list io -> Prop :=
| on_ret f a r m o : goes a m o -> on f (SRet (a, r)) m o
| on_m1 f a i k m o : 0 <= a < 0x2000 -> on true (k (m a)) m o -> on f (SM1 a i k) m o
| on_rd f a k m o : rdable f a -> on f (k (m a)) m o -> on f (SRd a k) m o
| on_idle f a k m o : on f k m o -> on f (SIdleM1 a k) m o
| on_skip f a k m o : on f k m o -> on f (SSkip a k) m o
| on_x f a i k m o : on f k m o -> on f (SX a i k) m o
| on_wr f a v k m o : wrable f a -> on f k (mupd m a (v mod 256)) o -> on f (SWr a v k) m o
| on_in f p k m o : (forall v, 0 <= v < 256 -> on f (k v) m (o ++ [IIn p v])) -> on f (SIn p k) m o
| on_out f p v k m o : (forall b, on f (k b) m (o ++ [IOut p v])) -> on f (SOut p v k) m o
| on_irq f k m o : q = false -> on f (k false) m o -> on f (SIrq k) m o
| on_reti f a k m o : (forall b, on f (k b) m (o ++ [IReti])) -> on f (SReti a k) m o
| on_ack f a k m o : (forall v, 0 <= v < 256 -> on f (k v) m (o ++ [IAck v])) -> on f (SAck a k) m o.
Lemma on_wpr (t : tree) : forall r m o, wpr r t m o (fun x m o => goes (fst x) m o) -> on r t m o.
Proof.
  induction t; cbn [wpr]; intros r m o W; try (now constructor; auto); try (destruct W; now constructor; auto).
  destruct x. now constructor.
Qed.
Lemma goes_step a m o : wpr false (next ch a) m o (fun x m o => goes (fst x) m o) -> goes a m o.
Proof. intros W. apply g_step. now apply on_wpr. Qed.
End Goes.
End Hoare.
Scheme goes_ind' := Minimality for goes Sort Prop with on_ind' := Minimality for on Sort Prop.

(** ** The memory, along the events on the bus *)
Section Mem.
Variable kb : Z.
Notation view := (view kernel kb).
Fixpoint bhist {WB RB} (bl : list (bev WB RB)) (h : list mop) : list mop :=
  match bl with
  | [] => h
  | VOp a _ _ :: bl => bhist bl (MFetch (a mod 0x10000) :: h)
  | VWr a v :: bl => bhist bl (MWrite (a mod 0x10000) (v mod 256) :: h)
  | VOut p v _ _ :: bl => bhist bl (if memory_port p then MSelect (v mod 256) :: h else h)
  | _ :: bl => bhist bl h
  end.
Fixpoint bus_mem {WB RB} (h : list mop) (bl : list (bev WB RB)) : Prop :=
  match bl with
  | [] => True
  | VOp a _ v :: bl => let h := MFetch (a mod 0x10000) :: h in v = view h (a mod 0x10000) /\ bus_mem h bl
  | VRd a v :: bl => v = view h (a mod 0x10000) /\ bus_mem h bl
  | VWr a v :: bl => bus_mem (MWrite (a mod 0x10000) (v mod 256) :: h) bl
  | VOut p v _ _ :: bl => bus_mem (if memory_port p then MSelect (v mod 256) :: h else h) bl
  | _ :: bl => bus_mem h bl
  end.
Lemma carts_byte h : Forall byte_op h -> Forall (fun x => forall i, 0 <= rb_data x i < 256) (cartridges h).
Proof.
  induction 1 as [|o h Ho _ IH]; [constructor|]. destruct o; cbn [cartridges]; try exact IH; [|constructor].
  apply Forall_app. split; [exact IH|]. constructor; [exact Ho|constructor].
Qed.
Lemma kernel_page_byte h a : Forall byte_op h -> 0 <= kernel_page h a < 256.
Proof. induction 1 as [|o h Ho _ IH]; cbn; [lia|]. destruct o; try exact IH. cbn in Ho. destruct (_ && _); assumption. Qed.
Lemma user_ram_byte h a : Forall byte_op h -> 0 <= user_ram h a < 256.
Proof. induction 1 as [|o h Ho _ IH]; cbn; [lia|]. destruct o; try exact IH. cbn in Ho. destruct (_ =? _); assumption. Qed.
Lemma view_byte h a : Forall byte_op h -> 0 <= view h a < 256.
Proof.
  intros B. unfold SpecRal.view. destruct (_ <? _); [apply kernel_bytes|]. destruct (_ <? _).
  - destruct (in_rom h); [now apply kernel_page_byte|]. unfold cartridge. destruct (nth_error _ _) as [x|] eqn:E; [|lia].
    apply nth_error_In in E. apply carts_byte in B. rewrite Forall_forall in B. now apply B.
  - destruct (_ <? _); [now apply user_ram_byte|lia].
Qed.
Lemma byte_mod v : 0 <= v mod 256 < 256. Proof. apply Z.mod_pos_bound. lia. Qed.
Lemma log_bus (l : list (ev Z unit unit)) : forall h, Forall byte_op h -> log_mem kernel kb h l ->
  bus_mem h (buses l) /\ bhist (buses l) h = history l h /\ Forall byte_op (history l h).
Proof.
  assert (B0 : forall h o, Forall byte_op h -> byte_op o -> Forall byte_op (o :: h)) by (now constructor).
  induction l as [|e l IH]; intros h B L; [now split|].
  destruct e; cbn [log_mem history] in L |- *; change (buses (?e :: l)) with (bus1 e ++ buses l); cbn [bus1 app bus_mem bhist]; try (exact (IH h B L)); try (destruct L as [_ L]; exact (IH h B L)).
  - (* EOut *) destruct (memory_port p).
    + destruct L as (_ & _ & L). apply IH; [now apply B0|exact L].
    + now apply IH.
  - destruct L as [E L]. destruct (IH _ B L) as (I1 & I2 & I3). rewrite (Z.mod_small (view h _)) in E by now apply view_byte. now repeat split.
  - destruct L as [E L]. destruct (IH _ B L) as (I1 & I2 & I3).
    assert (V1 := view_byte h (a mod 65536) B). assert (V2 := view_byte h ((a + 1) mod 65536) B).
    rewrite Z.mod_small in E by lia. rewrite (Z.mod_mod (a + 1)) by lia.
    assert (E1 : v mod 256 = view h (a mod 65536)). { rewrite E, Z.mul_comm, Z.mod_add by lia. now apply Z.mod_small. }
    assert (E2 : v / 256 = view h ((a + 1) mod 65536)). { rewrite E, Z.mul_comm, Z.div_add by lia. rewrite Z.div_small; lia. }
    now repeat split.
  - destruct L as [E L]. assert (B1 : Forall byte_op (MFetch (a mod 65536) :: h)) by now apply B0.
    destruct (IH _ B1 L) as (I1 & I2 & I3). rewrite Z.mod_small in E by now apply view_byte. now repeat split.
  - assert (B1 : Forall byte_op (MWrite (a mod 65536) (v mod 256) :: h)) by (apply B0; [assumption|apply byte_mod]).
    exact (IH _ B1 L).
Qed.
(** [m] is what the kernel sees. *)
Definition sees (h : list mop) (m : mem) : Prop := forall a, 0 <= a < 0x10000 -> m a = kview kb h a.
Lemma sees_fetch h m a : sees h m -> sees (MFetch a :: h) m.
Proof. intros S x Hx. rewrite (S x Hx). reflexivity. Qed.
Lemma sees_select h m n : sees h m -> sees (MSelect n :: h) m.
Proof. intros S x Hx. rewrite (S x Hx). reflexivity. Qed.
Lemma sees_write h m a v r : sees h m -> (r = true -> in_rom h = true) -> wrable (0x4000 + kb * 1024) r a -> 0 <= kb * 1024 <= 0xC000 ->
  sees (MWrite a v :: h) (mupd m a v).
Proof.
  intros S R W K x Hx. unfold mupd, kview, SpecRal.view. cbn [in_rom kernel_page user_ram]. change (0 <? 8192) with true. cbv iota.
  unfold wrable in W. assert (E := S x Hx). unfold kview, SpecRal.view in E. cbn [in_rom kernel_page user_ram] in E.
  change (0 <? 8192) with true in E. cbv iota in E. rewrite (Z.eqb_sym a x).
  destruct (Z.eqb_spec x a) as [->|N].
  - destruct (Z.ltb_spec a 8192); [destruct r; lia|]. destruct (Z.ltb_spec a 16384).
    + destruct r; [|lia]. now rewrite R.
    + destruct (Z.ltb_spec a (16384 + kb * 1024)); [reflexivity|lia].
  - rewrite andb_false_r. exact E.
Qed.
Lemma sees_read h m a r : sees h m -> (r = true -> in_rom h = true) -> rdable r a -> m a = view h a.
Proof.
  intros S R [D1 D2]. rewrite (S a D1). unfold kview, SpecRal.view. cbn [in_rom kernel_page user_ram]. change (0 <? 8192) with true. cbv iota.
  destruct (Z.ltb_spec a 8192); [reflexivity|]. destruct (Z.ltb_spec a 16384); [|reflexivity]. destruct D2 as [D|[D|D]]; [lia|lia|]. now rewrite R.
Qed.
End Mem.

(** ** Along a run *)
Section Run.
Context {T : Type}.
Variable ch : SpecIsa.chip T.
Variable q : bool.
Variable kb : Z.
Hypothesis K : 0 <= kb * 1024 <= 0xC000.
Variable P : arch T -> mem -> list io -> Prop.
Notation top := (0x4000 + kb * 1024).
Notation tree := (cyc unit unit (arch T * outcome unit unit)).
Definition walks (Q : arch T -> mem -> list io -> Prop) (f : bool) (t : tree) (m : mem) (o : list io) : Prop :=
  forall h bl cl a' r, (f = true -> in_rom h = true) -> sees kb h m -> accepts t bl cl (a', r) -> bus_mem kb h bl ->
    Forall data_byte bl -> (q = false -> ~ In true (asked bl)) ->
    (q = true -> asked bl = []) /\ exists m1, sees kb (bhist bl h) m1 /\ Q a' m1 (o ++ ios bl).
Lemma waited_inv (F : list tev -> Prop) p w cl : waited (P := F) p w cl -> exists cl', F cl'.
Proof. destruct w; cbn [waited]; [|eauto]. destruct cl as [|[] cl]; try contradiction. intros (_ & _ & H). eauto. Qed.
Lemma goes_run (Q : arch T -> mem -> list io -> Prop) :
  (forall a m o, P a m o -> Q a m o) ->
  (forall a m o, walks Q false (next ch a) m o -> Q a m o) ->
  (forall a m o, goes (WB:=unit) (RB:=unit) ch q top P a m o -> Q a m o) /\
  (forall f t m o, on (WB:=unit) (RB:=unit) ch q top P f t m o -> walks Q f t m o).
Proof.
  intros HN HS.
  assert (W : (forall f a r m o, Q a m o -> walks Q f (SRet (a, r)) m o) /\
    (forall f a i k m o, 0 <= a < 0x2000 -> walks Q true (k (m a)) m o -> walks Q f (SM1 a i k) m o) /\
    (forall f a k m o, rdable f a -> walks Q f (k (m a)) m o -> walks Q f (SRd a k) m o) /\
    (forall f a k m o, walks Q f k m o -> walks Q f (SIdleM1 a k) m o) /\
    (forall f a k m o, walks Q f k m o -> walks Q f (SSkip a k) m o) /\
    (forall f a i k m o, walks Q f k m o -> walks Q f (SX a i k) m o) /\
    (forall f a v k m o, wrable top f a -> walks Q f k (mupd m a (v mod 256)) o -> walks Q f (SWr a v k) m o) /\
    (forall f p k m o, (forall v, 0 <= v < 256 -> walks Q f (k v) m (o ++ [IIn p v])) -> walks Q f (SIn p k) m o) /\
    (forall f p v k m o, (forall b, walks Q f (k b) m (o ++ [IOut p v])) -> walks Q f (SOut p v k) m o) /\
    (forall f k m o, q = false -> walks Q f (k false) m o -> walks Q f (SIrq k) m o) /\
    (forall f a k m o, (forall b, walks Q f (k b) m (o ++ [IReti])) -> walks Q f (SReti a k) m o) /\
    (forall f a k m o, (forall v, 0 <= v < 256 -> walks Q f (k v) m (o ++ [IAck v])) -> walks Q f (SAck a k) m o)).
  { repeat match goal with |- _ /\ _ => split end; intros f; unfold walks.
    - intros a r m o H h bl cl a' r' R S E M D A. cbn [accepts] in E. destruct E as (-> & -> & E). injection E as <- <-.
      split; [reflexivity|]. exists m. cbn [ios flat_map]. rewrite app_nil_r. now split.
    - intros a i k m o Ha H h bl cl a' r R S E M D A. cbn [accepts] in E. destruct bl as [|[] bl]; try contradiction.
      destruct cl as [|[] cl]; try contradiction. destruct E as (-> & -> & -> & E). cbn [bus_mem] in M. destruct M as [-> M].
      inversion D; subst. cbn [bhist]. rewrite Z.mod_small in * by lia.
      assert (IR : in_rom (MFetch a :: h) = true) by (cbn; lia).
      rewrite <- (sees_read kb _ m a true) in E; [|now apply sees_fetch|now intros _|unfold rdable; lia].
      exact (H _ bl cl a' r (fun _ => IR) (sees_fetch _ _ _ _ S) E M H3 A).
    - intros a k m o Ha H h bl cl a' r R S E M D A. cbn [accepts] in E. destruct bl as [|[] bl]; try contradiction.
      destruct cl as [|[] cl]; try contradiction. destruct E as (-> & -> & E). cbn [bus_mem] in M. destruct M as [-> M].
      inversion D; subst. cbn [bhist]. assert (Ha' := Ha). unfold rdable in Ha'. rewrite Z.mod_small in * by lia.
      rewrite <- (sees_read kb _ m a f) in E by assumption. exact (H _ bl cl a' r R S E M H3 A).
    - intros a k m o H h bl cl a' r R S E M D A. cbn [accepts] in E.
      destruct cl as [|[] cl]; try contradiction. destruct E as (-> & E). exact (H _ bl cl a' r R S E M D A).
    - intros a k m o H h bl cl a' r R S E M D A. cbn [accepts] in E.
      destruct cl as [|[] cl]; try contradiction. destruct E as (-> & E). exact (H _ bl cl a' r R S E M D A).
    - intros a i k m o H h bl cl a' r R S E M D A. cbn [accepts] in E.
      destruct cl as [|[] cl]; try contradiction. destruct E as (-> & -> & E). exact (H _ bl cl a' r R S E M D A).
    - intros a v k m o Ha H h bl cl a' r R S E M D A. cbn [accepts] in E. destruct bl as [|[] bl]; try contradiction.
      destruct cl as [|[] cl]; try contradiction. destruct E as (-> & -> & -> & E). cbn [bus_mem] in M.
      inversion D; subst. cbn [bhist]. assert (0 <= a < 65536) by (unfold wrable in Ha; destruct f; lia). rewrite Z.mod_small in * by lia.
      refine (H _ bl cl a' r _ _ E M H3 A); [exact R|]. now apply sees_write with f.
    - intros p k m o H h bl cl a' r R S E M D A. cbn [accepts] in E. destruct bl as [|[] bl]; try contradiction.
      destruct cl as [|[] cl]; try contradiction. destruct E as (-> & -> & E). apply waited_inv in E. destruct E as (cl' & E).
      inversion D; subst. cbn [ios flat_map ios1 app bhist]. change (IIn p v :: ?x) with ([IIn p v] ++ x). rewrite app_assoc.
      exact (H v H2 _ bl cl' a' r R S E M H3 A).
    - intros p v k m o H h bl cl a' r R S E M D A. cbn [accepts] in E. destruct bl as [|[] bl]; try contradiction.
      destruct cl as [|[] cl]; try contradiction. destruct E as (-> & -> & -> & E). apply waited_inv in E. destruct E as (cl' & E).
      inversion D; subst. cbn [ios flat_map ios1 app bhist]. change (IOut p v :: ?x) with ([IOut p v] ++ x). rewrite app_assoc.
      cbn [bus_mem] in M. refine (H b _ bl cl' a' r _ _ E M H3 A); destruct (memory_port p); auto.
    - intros k m o q0 H h bl cl a' r R S E M D A. cbn [accepts] in E. destruct bl as [|[] bl]; try contradiction.
      destruct b; [exfalso; apply (A q0); now left|]. split; [congruence|]. inversion D; subst. refine (proj2 (H _ bl cl a' r R S E M H3 _)). intros _ I. apply (A q0). now right.
    - intros a k m o H h bl cl a' r R S E M D A. cbn [accepts] in E. destruct bl as [|[] bl]; try contradiction.
      destruct E as (-> & E). inversion D; subst. cbn [ios flat_map ios1 app bhist]. change (IReti :: ?x) with ([IReti] ++ x). rewrite app_assoc.
      exact (H b _ bl cl a' r R S E M H3 A).
    - intros a k m o H h bl cl a' r R S E M D A. cbn [accepts] in E. destruct bl as [|[] bl]; try contradiction.
      destruct cl as [|[] cl]; try contradiction. destruct E as (-> & -> & E). apply waited_inv in E. destruct E as (cl' & E).
      inversion D; subst. cbn [ios flat_map ios1 app bhist]. change (IAck v :: ?x) with ([IAck v] ++ x). rewrite app_assoc.
      exact (H v H2 _ bl cl' a' r R S E M H3 A). }
  destruct W as (W1 & W2 & W3 & W4 & W5 & W6 & W7 & W8 & W9 & W10 & W11 & W12).
  split.
  - apply (goes_ind' T unit unit ch q top P Q (walks Q)); auto.
  - apply (on_ind' T unit unit ch q top P Q (walks Q)); auto.
Qed.
End Run.

(** ** From the specification to runs of the machine *)
Section Link.
Context {Q T D : Type}.
Variable FL : Flavour Q.
Variable ch : SpecIsa.chip T.
Variable absq : Q -> T.
Context (OK : chip_ok FL ch absq).
Variables (dv : dev D) (limit kb : Z).
Variable q : bool.
Notation Hs := (ral_host 255 124 dv limit).
Notation matches := (matches kernel kb).
Notation top := (0x4000 + kb * 1024).
Variable P : arch T -> mem -> list io -> Prop.

(** The outcome of a run from the memory [h]: nobody panicked and the state is as wanted. *)
Definition reached (o : list io) (h : list mop) (c' : cpu Q) (b' : bus D) (l : list (ev Z unit unit)) : Prop :=
  exists mm' d' m', b' = Some (mm', d') /\ wf c' /\ matches (history l h) mm' /\ Forall byte_op (history l h) /\
    sees kb (history l h) m' /\ P (abs absq c') m' (o ++ ios (buses l)).
Lemma history_app (l1 l2 : list (ev Z unit unit)) : forall h, history (l1 ++ l2) h = history l2 (history l1 h).
Proof. induction l1 as [|e l1 IH]; intros h; [reflexivity|]. destruct e; cbn [app history]; apply IH. Qed.
Lemma ios_app {WB RB} (b1 b2 : list (bev WB RB)) : ios (b1 ++ b2) = ios b1 ++ ios b2.
Proof. apply flat_map_app. Qed.
Lemma asked_app {WB RB} (b1 b2 : list (bev WB RB)) : asked (b1 ++ b2) = asked b1 ++ asked b2.
Proof. apply flat_map_app. Qed.
(** One step of the machine. *)
Lemma next_one c h mm d k : wf c -> matches h mm -> Forall byte_op h -> exists c' r b' k' l,
  runl Hs (execute_next FL false c) (Some (mm, d)) k = Some ((c', result_of r), b', k', l) /\ wf c' /\
  accepts (next ch (abs absq c)) (buses l) (clocks l) (abs absq c', r) /\ Forall data_byte (buses l) /\
  (b' = None \/ exists mm' d', b' = Some (mm', d') /\ matches (history l h) mm' /\ bus_mem kb h (buses l) /\
     bhist (buses l) h = history l h /\ Forall byte_op (history l h)).
Proof.
  intros W M B. destruct (execute_next_follows FL ch absq OK false c W _ _ Hs (Some (mm, d)) k) as ([c' r'] & b' & k' & l & E & DB & W' & r & ER & A).
  cbn [fst snd] in *. subst r'. exists c', r, b', k', l. repeat (split; [assumption|]).
  destruct b' as [[mm' d']|]; [|now left]. right. exists mm', d'. destruct (run_mem dv limit kernel kb _ _ _ _ _ _ _ _ _ _ M E) as [L M'].
  destruct (log_bus kb l h B L) as (L1 & L2 & L3). auto 7.
Qed.
Definition good (a : arch T) (m : mem) (o : list io) : Prop :=
  forall c h mm d k, wf c -> abs absq c = a -> matches h mm -> Forall byte_op h -> sees kb h m ->
  exists n c' b' k' l, runl Hs (steps FL n c) (Some (mm, d)) k = Some (c', b', k', l) /\
    (b' = None \/ (q = false /\ In true (asked (buses l))) \/ (q = true -> asked (buses l) = []) /\ reached o h c' b' l).
Lemma good_now a m o : P a m o -> good a m o.
Proof.
  intros HP c h mm d k W <- M B S. exists 0%nat, c, (Some (mm, d)), k, []. split; [reflexivity|]. right. right. split; [reflexivity|].
  exists mm, d, m. cbn [buses flat_map ios history]. rewrite app_nil_r. auto 9.
Qed.
Lemma steps_S n c b k c1 r b1 k1 l1 : runl Hs (execute_next FL false c) b k = Some ((c1, r), b1, k1, l1) ->
  runl Hs (steps FL (S n) c) b k =
  match runl Hs (steps FL n c1) b1 k1 with Some (y, b2, k2, l2) => Some (y, b2, k2, l1 ++ l2) | None => None end.
Proof. intros E1. cbn [steps]. rewrite runl_bind, E1. reflexivity. Qed.
Lemma good_step a m o : walks q kb good false (next ch a) m o -> good a m o.
Proof.
  intros WK c h mm d k W <- M B S.
  destruct (next_one c h mm d k W M B) as (c1 & r & b1 & k1 & l1 & E1 & W1 & A1 & D1 & O1).
  destruct O1 as [->|(mm1 & d1 & -> & M1 & L1 & H1 & B1)].
  { exists 1%nat, c1, None, k1, (l1 ++ []). rewrite (steps_S _ _ _ _ _ _ _ _ _ E1). cbn [steps runl]. split; [reflexivity|now left]. }
  assert (DEC : q = false /\ In true (asked (buses l1)) \/ (q = false -> ~ In true (asked (buses l1)))).
  { destruct q; [right; discriminate|]. destruct (in_dec bool_dec true (asked (buses l1))); [left; now split|now right]. }
  destruct DEC as [I|I].
  { exists 1%nat, c1, (Some (mm1, d1)), k1, (l1 ++ []). rewrite (steps_S _ _ _ _ _ _ _ _ _ E1). cbn [steps runl]. rewrite app_nil_r.
    split; [reflexivity|now right; left]. }
  destruct (WK h _ _ _ _ (fun F : false = true => match Bool.diff_false_true F with end) S A1 L1 D1 I) as (N1 & m1 & S1 & HQ).
  rewrite H1 in S1. destruct (HQ c1 (history l1 h) mm1 d1 k1 W1 eq_refl M1 B1 S1) as (n & c2 & b2 & k2 & l2 & E2 & O2).
  exists (Datatypes.S n), c2, b2, k2, (l1 ++ l2). rewrite (steps_S _ _ _ _ _ _ _ _ _ E1), E2. split; [reflexivity|]. rewrite buses_app', asked_app.
  destruct O2 as [->|[[I0 I2]|(N2 & mm2 & d2 & m2 & R1 & R2 & R3 & R4 & R5 & R6)]]; [now left|right; left; split; [exact I0|apply in_or_app; now right]|].
  right. right. split; [intros Q1; rewrite (N1 Q1), (N2 Q1); reflexivity|]. exists mm2, d2, m2. rewrite history_app, buses_app', ios_app, app_assoc. auto 9.
Qed.
Lemma goes_good : 0 <= kb * 1024 <= 0xC000 -> forall a m o, goes (WB:=unit) (RB:=unit) ch q top P a m o -> good a m o.
Proof. intros KB. exact (proj1 (goes_run ch q kb KB P good good_now good_step)). Qed.
(** The same after an interrupt has been accepted. *)
Definition good_irq (a : arch T) (m : mem) (o : list io) : Prop :=
  forall c h mm d k, wf c -> abs absq c = a -> matches h mm -> Forall byte_op h -> sees kb h m ->
  exists n c' b' k' l, runl Hs (steps FL n c) (Some (mm, d)) k = Some (c', b', k', l) /\
    (b' = None \/ (exists bs, asked (buses l) = false :: bs) \/ (q = false /\ exists bs, asked (buses l) = true :: bs /\ In true bs) \/
     hd_error (asked (buses l)) = Some true /\ (q = true -> asked (buses l) = [true]) /\ reached o h c' b' l).
Lemma taken_good a m o : 0 <= kb * 1024 <= 0xC000 -> int_enabled a = true ->
  on (WB:=unit) (RB:=unit) ch q top P false (accept_int ch a) m o -> good_irq a m o.
Proof.
  intros KB IE G c h mm d k W <- M B S.
  destruct (next_one c h mm d k W M B) as (c1 & r & b1 & k1 & l1 & E1 & W1 & A1 & D1 & O1).
  destruct O1 as [->|(mm1 & d1 & -> & M1 & L1 & H1 & B1)].
  { exists 1%nat, c1, None, k1, (l1 ++ []). rewrite (steps_S _ _ _ _ _ _ _ _ _ E1). cbn [steps runl]. split; [reflexivity|now left]. }
  assert (NX : next (WB:=unit) (RB:=unit) ch (abs absq c) = SIrq (fun irq => if irq then accept_int ch (abs absq c)
    else if aHALT (abs absq c) then SIdleM1 (aPC (abs absq c)) (done (inc_R (abs absq c))) else fetch (abs absq c) (exec ch))).
  { unfold next. rewrite IE. reflexivity. }
  rewrite NX in A1. cbn [accepts] in A1. destruct (buses l1) as [|e bl1] eqn:EB; [contradiction|]. destruct e; try contradiction.
  destruct b; cycle 1.
  { exists 1%nat, c1, (Some (mm1, d1)), k1, (l1 ++ []). rewrite (steps_S _ _ _ _ _ _ _ _ _ E1). cbn [steps runl]. rewrite app_nil_r, EB.
    split; [reflexivity|]. right. left. exists (asked bl1). reflexivity. }
  assert (DEC : q = false /\ In true (asked bl1) \/ (q = false -> ~ In true (asked bl1))).
  { destruct q; [right; discriminate|]. destruct (in_dec bool_dec true (asked bl1)); [left; now split|now right]. }
  destruct DEC as [[I0 I]|I].
  { exists 1%nat, c1, (Some (mm1, d1)), k1, (l1 ++ []). rewrite (steps_S _ _ _ _ _ _ _ _ _ E1). cbn [steps runl]. rewrite app_nil_r, EB.
    split; [reflexivity|]. right. right. left. split; [exact I0|]. exists (asked bl1). split; [reflexivity|exact I]. }
  assert (D1' : Forall data_byte bl1) by exact (Forall_inv_tail D1).
  destruct (proj2 (goes_run ch q kb KB P good good_now good_step) _ _ _ _ G h bl1 _ _ _
    (fun F : false = true => match Bool.diff_false_true F with end) S A1 L1 D1' I) as (N1 & m1 & S1 & HQ).
  cbn [bhist] in H1. rewrite H1 in S1. destruct (HQ c1 (history l1 h) mm1 d1 k1 W1 eq_refl M1 B1 S1) as (n & c2 & b2 & k2 & l2 & E2 & O2).
  exists (Datatypes.S n), c2, b2, k2, (l1 ++ l2). rewrite (steps_S _ _ _ _ _ _ _ _ _ E1), E2. split; [reflexivity|].
  rewrite buses_app', asked_app, EB.
  destruct O2 as [->|[[I0 I2]|(N2 & mm2 & d2 & m2 & R1 & R2 & R3 & R4 & R5 & R6)]]; [left; reflexivity| |].
  { right. right. left. split; [exact I0|]. exists (asked bl1 ++ asked (buses l2)). split; [reflexivity|]. apply in_or_app. right. exact I2. }
  right. right. right. split; [reflexivity|]. split; [intros Q1; change (asked (VIrq true :: bl1)) with (true :: asked bl1); rewrite (N1 Q1), (N2 Q1); reflexivity|]. exists mm2, d2, m2. rewrite history_app, buses_app', ios_app, EB. 
  change (ios (VIrq true :: bl1)) with (ios bl1). rewrite app_assoc. auto 9.
Qed.
End Link.
