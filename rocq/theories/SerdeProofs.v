(** Serialization round trips. *)
From Coq Require Import ZArith Bool String Ascii List Permutation Lia.
From Verif Require Import Base Range Parse Cpu Flavours Any Format Serde SpecSerde.
Import ListNotations.
Open Scope string_scope.
Open Scope list_scope.
Open Scope Z_scope.

(** ** Lists *)
Lemma perm_forall2 {A B} (R : A -> B -> Prop) l l' : Permutation l l' -> forall ds, Forall2 R l ds -> exists ds', Permutation ds ds' /\ Forall2 R l' ds'.
Proof.
  induction 1 as [|x l l' Hp IH|x y l|l l1 l2 H1 IH1 H2 IH2]; intros ds HF.
  - exists ds; split; [apply Permutation_refl|exact HF].
  - inversion HF as [|? d ? ds1 Hd HF1]; subst. destruct (IH _ HF1) as (ds' & P & F). exists (d :: ds'). split; [now constructor|now constructor].
  - inversion HF as [|? d ? ds1 Hd HF1]; subst. inversion HF1 as [|? d' ? ds2 Hd' HF2]; subst.
    exists (d' :: d :: ds2). split; [apply perm_swap|]. constructor; [exact Hd'|]. now constructor.
  - destruct (IH1 _ HF) as (d1 & P1 & F1). destruct (IH2 _ F1) as (d2 & P2 & F2). exists d2. split; [now apply (Permutation_trans P1)|exact F2].
Qed.
Lemma forall2_compose {A B C} (R : A -> B -> Prop) (S : A -> C -> Prop) (T : C -> B -> Prop) l bs cs :
  (forall a b c, R a b -> S a c -> T c b) -> Forall2 R l bs -> Forall2 S l cs -> Forall2 T cs bs.
Proof.
  intros H HR. revert cs. induction HR as [|a b l bs Hab HR IH]; intros cs HS; inversion HS; subst; constructor; [eapply H; eassumption|now apply IH].
Qed.
Lemma forall2_filter {A B} (R : A -> B -> Prop) (p : A -> bool) (q : B -> bool) l bs :
  (forall a b, R a b -> p a = q b) -> Forall2 R l bs -> Forall2 R (filter p l) (filter q bs).
Proof.
  intros H HR. induction HR as [|a b l bs Hab HR IH]; [constructor|]. cbn [filter]. rewrite <- (H a b Hab). destruct (p a); [now constructor|exact IH].
Qed.

(** ** Derived structs *)
Lemma read_named_ok {X} (d : val -> option X) keys l ds :
  Forall2 (fun e p => keyof keys (fst e) = Some (fst p) /\ d (snd e) = Some (snd p)) l ds -> NoDup (map fst ds) ->
  forall acc, (forall i, In i (map fst ds) -> acc i = None) ->
  exists acc', read_named d keys l acc = Some acc' /\ (forall i x, In (i, x) ds -> acc' i = Some x) /\ (forall i, ~ In i (map fst ds) -> acc' i = acc i).
Proof.
  induction 1 as [|[k v] [i x] l ds [Hk Hv] HF IH]; intros HN acc Hacc.
  - exists acc. split; [reflexivity|]. split; [intros ? ? []|reflexivity].
  - cbn [map fst snd] in *. inversion HN as [|? ? Hni HN']; subst.
    destruct (IH HN' (upd_nat acc i x)) as (acc' & E & HI & HO).
    + intros j Hj. unfold upd_nat. destruct (Nat.eqb_spec i j) as [->|_]; [contradiction|]. apply Hacc. now right.
    + exists acc'. split.
      * cbn [read_named]. rewrite Hk, (Hacc i (or_introl eq_refl)), Hv. exact E.
      * split.
        -- intros j y [Hj|Hj]; [|now apply HI]. injection Hj as -> ->. rewrite (HO j Hni). unfold upd_nat. now rewrite Nat.eqb_refl.
        -- intros j Hj. rewrite HO by (intros C; apply Hj; now right). unfold upd_nat. destruct (Nat.eqb_spec i j) as [->|_]; [|reflexivity].
           exfalso. apply Hj. now left.
Qed.
(** A derived struct from a map, given what each of its fields decodes to. *)
Lemma read_named_perm {X} big (d : val -> option X) keys fs ds fs' l :
  Forall2 (fun f p => forall k v, key_for (fst f) k -> carries big (snd f) v -> keyof keys k = Some (fst p) /\ d v = Some (snd p)) fs ds ->
  NoDup (map fst ds) -> Permutation fs fs' ->
  Forall2 (fun f e => key_for (fst f) (fst e) /\ carries big (snd f) (snd e)) fs' l ->
  exists acc', read_named d keys l none_nat = Some acc' /\ (forall i x, In (i, x) ds -> acc' i = Some x).
Proof.
  intros HF HN HP HC. destruct (perm_forall2 _ _ _ HP _ HF) as (ds' & P' & F').
  assert (HF2 : Forall2 (fun e p => keyof keys (fst e) = Some (fst p) /\ d (snd e) = Some (snd p)) l ds').
  { refine (forall2_compose _ _ _ _ _ _ _ F' HC). intros f p e H [H1 H2]. now apply H. }
  destruct (read_named_ok d keys l ds' HF2) with (acc := @none_nat X) as (acc' & E & HI & _).
  - exact (Permutation_NoDup (Permutation_map fst P') HN).
  - reflexivity.
  - exists acc'. split; [exact E|]. intros i x Hi. apply HI. exact (Permutation_in _ P' Hi).
Qed.

Lemma nodup01 {X} (x y : X) : NoDup (map fst [(0%nat, x); (1%nat, y)]).
Proof. cbn. constructor; [intros [H|[]]; discriminate H|]. constructor; [intros []|constructor]. Qed.
Lemma nodup012 {X} (x y z : X) : NoDup (map fst [(0%nat, x); (1%nat, y); (2%nat, z)]).
Proof. cbn. constructor; [intros [H|[H|[]]]; discriminate H|]. constructor; [intros [H|[]]; discriminate H|]. constructor; [intros []|constructor]. Qed.

(** ** Values *)
Section Values.
Notation carries := (carries false).
Lemma k_bool b v : carries (SBool b) v -> de_bool v = Some b.
Proof. now inversion 1. Qed.
Lemma k_str s v : carries (SStr s) v -> de_str v = Some s.
Proof. now inversion 1. Qed.
Lemma k_u8 n v : byte n -> carries (SU8 n) v -> de_u8 v = Some n.
Proof. unfold byte. intros Hn. inversion 1; subst; cbn [de_u8]; (replace (0 <=? n) with true by lia); (replace (n <=? 255) with true by lia); reflexivity. Qed.
Lemma k_pair n v : word n -> carries (ser_pair n) v -> de_pair v = Some n.
Proof.
  unfold word, ser_pair. intros Hn. inversion 1 as [| | | | | |? HB| | | | | | |]; subst; cbn [de_pair].
  - replace (n <=? 65535) with true by lia. reflexivity.
  - reflexivity.
  - destruct HB as [HB|HB]; [|discriminate HB]. replace (-32768 <=? n) with true by lia. replace (n <=? 32767) with true by lia.
    cbn [andb]. unfold u16. now rewrite Z.mod_small by lia.
Qed.
Lemma k_im m v : carries (ser_im m) v -> de_im v = Some m.
Proof. destruct m; inversion 1; subst; reflexivity. Qed.
Lemma k_prefix p v : carries (ser_prefix p) v -> de_prefix v = Some p.
Proof.
  destruct p as [[|]|]; inversion 1 as [| | | | | | | | | |? ? H1|? ? H1| |]; subst; try reflexivity; inversion H1; subst; reflexivity.
Qed.

Ltac two_keys := match goal with H : key_for _ _ |- _ => destruct H as [->|H]; [|cbn in H] end; repeat match goal with
  | H : _ \/ _ |- _ => destruct H as [H|H] | H : (_, _) = (_, _) |- _ => (discriminate H || (injection H as H; subst)) | H : False |- _ => destruct H end.
Ltac onefield L := let k := fresh in let v := fresh in let HK := fresh in let HC := fresh in
  intros k v HK HC; cbn [fst snd] in HK, HC; (split; [clear HC; two_keys; reflexivity|clear HK; apply L; assumption]).
Ltac invseq H := repeat match type of H with Forall2 _ (_ :: _) _ => inversion H; clear H; subst; match goal with H2 : Forall2 _ _ _ |- _ => rename H2 into H end end.

Lemma seq_inv (fs : list (string * sval)) vs : Forall2 (fun f v => carries (snd f) v) fs vs ->
  match fs with
  | [] => vs = []
  | f :: fs => exists v vs', vs = v :: vs' /\ carries (snd f) v /\ Forall2 (fun f v => carries (snd f) v) fs vs'
  end.
Proof. inversion 1; subst; eauto. Qed.
Lemma k_regs b d h v : word b -> word d -> word h -> carries (ser_regs b d h) v -> de_regs v = Some (b, d, h).
Proof.
  intros Hb Hd Hh. inversion 1 as [| | | | | | | | | | | |? vs hint HF Hh' E1 E2|? fs' l HP HF]; subst.
  - destruct (seq_inv _ _ HF) as (v1 & vs1 & -> & C1 & HF1). destruct (seq_inv _ _ HF1) as (v2 & vs2 & -> & C2 & HF2).
    destruct (seq_inv _ _ HF2) as (v3 & vs3 & -> & C3 & HF3). cbn [snd] in C1, C2, C3.
    cbn [de_regs]. rewrite (k_pair b v1), (k_pair d v2), (k_pair h v3) by assumption. reflexivity.
  - destruct (fun A B => read_named_perm false de_pair [("bc", 0%nat); ("de", 1%nat); ("hl", 2%nat)] _ [(0%nat, b); (1%nat, d); (2%nat, h)] _ _ A B HP HF) as (acc' & E & HI).
    + do 3 (apply Forall2_cons; [onefield k_pair|]). apply Forall2_nil.
    + apply nodup012.
    + cbn [de_regs]. rewrite E. cbn [obind]. rewrite (HI 0%nat b), (HI 1%nat d), (HI 2%nat h) by (cbn; tauto). reflexivity.
Qed.
Lemma k_index x y v : word x -> word y -> carries (ser_index x y) v -> de_index v = Some (x, y).
Proof.
  intros Hx Hy. inversion 1 as [| | | | | | | | | | | |? vs hint HF Hh' E1 E2|? fs' l HP HF]; subst.
  - destruct (seq_inv _ _ HF) as (v1 & vs1 & -> & C1 & HF1). destruct (seq_inv _ _ HF1) as (v2 & vs2 & -> & C2 & HF2). cbn [snd] in C1, C2.
    cbn [de_index]. rewrite (k_pair x v1), (k_pair y v2) by assumption. reflexivity.
  - destruct (fun A B => read_named_perm false de_pair [("ix", 0%nat); ("iy", 1%nat)] _ [(0%nat, x); (1%nat, y)] _ _ A B HP HF) as (acc' & E & HI).
    + do 2 (apply Forall2_cons; [onefield k_pair|]). apply Forall2_nil.
    + apply nodup01.
    + cbn [de_index]. rewrite E. cbn [obind]. rewrite (HI 0%nat x), (HI 1%nat y) by (cbn; tauto). reflexivity.
Qed.
Lemma k_q q v : carries (ser_q q) v -> de_q v = Some q.
Proof.
  destruct q as [x y].
  inversion 1 as [| | | | | | | | | | | |? vs hint HF Hh' E1 E2|? fs' l HP HF]; subst; cbn [q_modified q_last] in *.
  - destruct (seq_inv _ _ HF) as (v1 & vs1 & -> & C1 & HF1). destruct (seq_inv _ _ HF1) as (v2 & vs2 & -> & C2 & HF2). cbn [snd] in C1, C2.
    cbn [de_q]. rewrite (k_bool x v1), (k_bool y v2) by assumption. reflexivity.
  - destruct (fun A B => read_named_perm false de_bool [("flags_modified", 0%nat); ("flagsModified", 0%nat);
                                         ("last_flags_modified", 1%nat); ("lastFlagsModified", 1%nat)] _ [(0%nat, x); (1%nat, y)] _ _ A B HP HF) as (acc' & E & HI).
    + do 2 (apply Forall2_cons; [onefield k_bool|]). apply Forall2_nil.
    + apply nodup01.
    + cbn [de_q]. rewrite E. cbn [obind]. rewrite (HI 0%nat x), (HI 1%nat y) by (cbn; tauto). reflexivity.
Qed.
Lemma k_unit q v : carries (ser_q q) v -> de_unit v = Some tt.
Proof. intros H. unfold de_unit. now rewrite (k_q q v H). Qed.

(** ** The whole CPU *)
Definition dfields {Q} (toq : Q -> qstate) (tag : string) (c : cpu Q) : list (field * fval) :=
  [(FType, XStr tag); (FAf, XPair (af c)); (FAfAlt, XPair (af_alt c)); (FRegs, XRegs (bc c) (de c) (hl c));
   (FRegsAlt, XRegs (bc_alt c) (de_alt c) (hl_alt c)); (FIndex, XIndex (ix c) (iy c)); (FPc, XPair (pc c));
   (FSp, XPair (sp c)); (FMemptr, XPair (memptr c)); (FLastEi, XBool (last_ei c)); (FIr, XPair (ir c));
   (FIm, XIm (im c)); (FIff1, XBool (iff1 c)); (FIff2, XBool (iff2 c)); (FHalt, XBool (halt c));
   (FPrefix, XPrefix (prefix c)); (FR, XU8 (r c)); (FFlavour, XFlavour (toq (flavour c)))].
Definition field_name (f : field) : string :=
  match f with
  | FType => "type" | FAf => "af" | FAfAlt => "afAlt" | FRegs => "regs" | FRegsAlt => "regsAlt" | FIndex => "index" | FPc => "pc" | FSp => "sp"
  | FMemptr => "memptr" | FLastEi => "lastEi" | FIr => "ir" | FIm => "im" | FIff1 => "iff1" | FIff2 => "iff2" | FHalt => "halt"
  | FPrefix => "prefix" | FR => "r" | FFlavour => "flavour"
  end.
Definition decodes (f : string * sval) (p : field * fval) : Prop :=
  (forall k v, key_for (fst f) k -> carries (snd f) v -> keyof z80_keys k = Some (fst p) /\ next_value (fst p) v = Some (snd p)) /\
  fst f = field_name (fst p).
Lemma fields_decode {Q} (toq : Q -> qstate) tag (c : cpu Q) : wf c -> Forall2 decodes (ser_fields tag (fun q => ser_q (toq q)) c) (dfields toq tag c).
Proof.
  intros W. destruct W.
  unfold ser_fields, dfields.
  repeat (apply Forall2_cons; [split; [|reflexivity]; intros k v HK HC; cbn [fst snd] in HK, HC |- *; (split; [clear HC; two_keys; reflexivity|clear HK; cbn [next_value]]) |]).
  19: apply Forall2_nil.
  all: first
    [ rewrite (k_str _ _ HC) | rewrite (k_bool _ _ HC) | rewrite (fun P => k_u8 _ _ P HC) by assumption | rewrite (fun P => k_pair _ _ P HC) by assumption
    | rewrite (k_im _ _ HC) | rewrite (k_prefix _ _ HC) | rewrite (k_q _ _ HC)
    | rewrite (fun P1 P2 P3 => k_regs _ _ _ _ P1 P2 P3 HC) by assumption
    | rewrite (fun P1 P2 => k_index _ _ _ P1 P2 HC) by assumption ]; reflexivity.
Qed.

Lemma read_fields_ok l ds :
  Forall2 (fun (e : string * val) p => keyof z80_keys (fst e) = Some (fst p) /\ next_value (fst p) (snd e) = Some (snd p)) l ds -> NoDup (map fst ds) ->
  forall a, (forall f, In f (map fst ds) -> a f = None) ->
  exists a', read_fields l a = Some a' /\ (forall f x, In (f, x) ds -> a' f = Some x) /\ (forall f, ~ In f (map fst ds) -> a' f = a f).
Proof.
  induction 1 as [|[k v] [i x] l ds [Hk Hv] HF IH]; intros HN acc Hacc.
  - exists acc. split; [reflexivity|]. split; [intros ? ? []|reflexivity].
  - cbn [map fst snd] in *. inversion HN as [|? ? Hni HN']; subst.
    destruct (IH HN' (set_local acc i x)) as (acc' & E & HI & HO).
    + intros j Hj. unfold set_local. destruct (field_eq i j) as [->|_]; [contradiction|]. apply Hacc. now right.
    + exists acc'. split.
      * cbn [read_fields]. rewrite Hk. cbn [obind]. rewrite (Hacc i (or_introl eq_refl)), Hv. exact E.
      * split.
        -- intros j y [Hj|Hj]; [|now apply HI]. injection Hj as -> ->. rewrite (HO j Hni). unfold set_local. now destruct (field_eq j j).
        -- intros j Hj. rewrite HO by (intros C; apply Hj; now right). unfold set_local. destruct (field_eq i j) as [->|_]; [|reflexivity].
           exfalso. apply Hj. now left.
Qed.

Lemma nodup_fields {Q} (toq : Q -> qstate) tag (c : cpu Q) : NoDup (map fst (dfields toq tag c)).
Proof. cbn. repeat (constructor; [cbn; intros H; repeat destruct H as [H|H]; (discriminate H || exact H)|]). constructor. Qed.
Lemma nodup_filter {A B} (p : A * B -> bool) (l : list (A * B)) : NoDup (map fst l) -> NoDup (map fst (filter p l)).
Proof.
  induction l as [|x l IH]; [intros; constructor|]. cbn [map filter]. inversion 1 as [|? ? Hn HN]; subst.
  destruct (p x); [|now apply IH]. cbn [map]. constructor; [|now apply IH]. intros H1. apply Hn.
  apply in_map_iff in H1 as (y & <- & Hy). apply filter_In in Hy as [Hy _]. now apply in_map.
Qed.
Lemma decoded_filter keep {Q} (toq : Q -> qstate) tag (c : cpu Q) : wf c ->
  Forall2 decodes (filter (fun f => keep (fst f)) (ser_fields tag (fun q => ser_q (toq q)) c)) (filter (fun p => keep (field_name (fst p))) (dfields toq tag c)).
Proof.
  intros W. apply forall2_filter; [|exact (fields_decode toq tag c W)]. intros f p [_ ->]. reflexivity.
Qed.
(** All that [visit_map] finds. *)
Lemma read_fields_perm keep {Q} (toq : Q -> qstate) tag (c : cpu Q) fs' l : wf c ->
  Permutation (filter (fun f => keep (fst f)) (ser_fields tag (fun q => ser_q (toq q)) c)) fs' ->
  Forall2 (fun f e => key_for (fst f) (fst e) /\ carries (snd f) (snd e)) fs' l ->
  exists a, read_fields l no_locals = Some a /\
    forall f x, In (f, x) (dfields toq tag c) -> a f = if keep (field_name f) then Some x else None.
Proof.
  intros W HP HC. destruct (perm_forall2 _ _ _ HP _ (decoded_filter keep toq tag c W)) as (ds' & P' & F').
  assert (HF2 : Forall2 (fun (e : string * val) p => keyof z80_keys (fst e) = Some (fst p) /\ next_value (fst p) (snd e) = Some (snd p)) l ds').
  { refine (forall2_compose _ _ _ _ _ _ _ F' HC). intros f p e H [H1 H2]. now apply (proj1 H). }
  destruct (read_fields_ok l ds' HF2) with (a := no_locals) as (a & E & HI & HO).
  - apply (Permutation_NoDup (Permutation_map fst P')). apply nodup_filter, nodup_fields.
  - reflexivity.
  - exists a. split; [exact E|]. intros f x Hf. destruct (keep (field_name f)) eqn:Hk.
    + apply HI. apply (Permutation_in _ P'). apply filter_In. split; [exact Hf|exact Hk].
    + rewrite HO; [reflexivity|]. intros H. apply in_map_iff in H as ([f' y] & Ef & Hy). cbn [fst] in Ef. subst f'.
      apply (Permutation_in _ (Permutation_sym P')) in Hy. apply filter_In in Hy as [_ Hy]. cbn [fst] in Hy. congruence.
Qed.
Definition drops_ok (keep : string -> bool) : Prop := forall s, keep s = false -> In s may_drop.
Definition build_any (keep : string -> bool) (tag : string) {Q} (toq : Q -> qstate) (c : cpu Q) : option z80any :=
  let d := fun q => into_flavour (fun _ : Q => q) (defaulted keep (flavour c) c) in
  let q := if keep "flavour" then toq (flavour c) else q_default in
  (if tag =? "NMOS" then Some (AnyNMOS (d q)) else if tag =? "CMOS" then Some (AnyCMOS (into_flavour (fun _ : Q => tt) (defaulted keep (flavour c) c)))
   else if tag =? "BM1" then Some (AnyBM1 (d q)) else None)%string.
Lemma visit_map_ok keep {Q} (toq : Q -> qstate) tag (c : cpu Q) fs' l force : wf c -> drops_ok keep ->
  Permutation (filter (fun f => keep (fst f)) (ser_fields tag (fun q => ser_q (toq q)) c)) fs' ->
  Forall2 (fun f e => key_for (fst f) (fst e) /\ carries (snd f) (snd e)) fs' l ->
  visit_map l force = build_any keep (match force with Some t => t | None => if keep "type" then tag else "NMOS" end) toq c.
Proof.
  intros W D HP HC. destruct (read_fields_perm keep toq tag c fs' l W HP HC) as (a & E & HA).
  unfold visit_map. rewrite E. cbn [obind].
  assert (K : forall s, ~ In s may_drop -> keep s = true).
  { intros s Hs. destruct (keep s) eqn:Ek; [reflexivity|]. exfalso. exact (Hs (D s Ek)). }
  assert (K' : forall f x, In (f, x) (dfields toq tag c) -> ~ In (field_name f) may_drop -> a f = Some x).
  { intros f x Hi Hn. rewrite (HA f x Hi), (K _ Hn). reflexivity. }
  assert (ND : forall s, existsb (String.eqb s) may_drop = false -> ~ In s may_drop).
  { intros s Hs Hi. assert (T : existsb (String.eqb s) may_drop = true) by (apply existsb_exists; exists s; split; [exact Hi|apply String.eqb_refl]). congruence. }
  Ltac useK K' ND f x := rewrite (K' f x) by (first [(unfold dfields; cbn [In]; tauto) | (apply ND; reflexivity)]).
  useK K' ND FAf (XPair (af c)). useK K' ND FAfAlt (XPair (af_alt c)). useK K' ND FRegs (XRegs (bc c) (de c) (hl c)).
  useK K' ND FRegsAlt (XRegs (bc_alt c) (de_alt c) (hl_alt c)). useK K' ND FIndex (XIndex (ix c) (iy c)). useK K' ND FPc (XPair (pc c)).
  useK K' ND FSp (XPair (sp c)). useK K' ND FLastEi (XBool (last_ei c)). useK K' ND FIr (XPair (ir c)). useK K' ND FIm (XIm (im c)).
  useK K' ND FIff1 (XBool (iff1 c)). useK K' ND FIff2 (XBool (iff2 c)). useK K' ND FHalt (XBool (halt c)). useK K' ND FPrefix (XPrefix (prefix c)).
  cbn [g_pair g_regs g_index g_bool g_im g_prefix obind].
  rewrite (HA FMemptr (XPair (memptr c))), (HA FR (XU8 (r c))), (HA FType (XStr tag)), (HA FFlavour (XFlavour (toq (flavour c)))) by (unfold dfields; cbn [In]; tauto).
  unfold build_any, into_flavour, defaulted. cbn [field_name Cpu.af af_alt bc Cpu.de hl bc_alt de_alt hl_alt ix iy Cpu.pc Cpu.sp Cpu.memptr last_ei Cpu.ir Cpu.im iff1 iff2 Cpu.halt Cpu.prefix Cpu.r flavour].
  replace (match force with Some t => t | None => or_else (g_str (if keep "type" then Some (XStr tag) else None)) "NMOS" end)
    with (match force with Some t => t | None => if keep "type" then tag else "NMOS" end) by (destruct force, (keep "type"); reflexivity).
  destruct (keep "memptr"), (keep "r"), (keep "flavour"); reflexivity.
Qed.
End Values.

(** ** Round trips *)
Notation carries0 := (carries false).
Lemma visit_seq_ok {Q Q'} (toq : Q -> qstate) (deq : val -> option Q') (f : Q -> Q') tag (c : cpu Q) vs :
  wf c -> (forall v, carries0 (ser_q (toq (flavour c))) v -> deq v = Some (f (flavour c))) ->
  Forall2 (fun f v => carries0 (snd f) v) (tl (ser_fields tag (fun q => ser_q (toq q)) c)) vs ->
  visit_seq deq vs = Some (into_flavour f c).
Proof.
  intros W HQ HF. destruct W. unfold ser_fields in HF. cbn [tl] in HF.
  do 17 (apply seq_inv in HF; let v := fresh "v" in let vs := fresh "vs" in let HC := fresh "HC" in destruct HF as (v & vs & -> & HC & HF); cbn [snd] in HC).
  unfold visit_seq.
  do 17 match goal with
  | HC : carries0 ?s ?v |- context [obind (?d ?v) _] =>
    first [ rewrite (k_bool _ _ HC) | rewrite (fun P => k_u8 _ _ P HC) by assumption | rewrite (fun P => k_pair _ _ P HC) by assumption
    | rewrite (k_im _ _ HC) | rewrite (k_prefix _ _ HC) | rewrite (HQ _ HC)
    | rewrite (fun P1 P2 P3 => k_regs _ _ _ _ P1 P2 P3 HC) by assumption
    | rewrite (fun P1 P2 => k_index _ _ _ P1 P2 HC) by assumption ]; cbn [obind]; clear HC
  end.
  reflexivity.
Qed.
Section Trip.
Context {Q Q' : Type} (toq : Q -> qstate) (f : Q -> Q').
Lemma de_seq tag (c : cpu Q) h vs tag' unwrap deq : wf c ->
  (forall v, carries0 (ser_q (toq (flavour c))) v -> deq v = Some (f (flavour c))) ->
  In tag ["NMOS"; "CMOS"; "BM1"] ->
  Forall2 (fun f v => carries0 (snd f) v) (ser_fields tag (fun q => ser_q (toq q)) c) vs -> h = None \/ h = Some 18%nat ->
  de_z80 tag' unwrap deq (VSeq h vs) = DOk (into_flavour f c).
Proof.
  intros W HQ HT HF Hh. pose proof HF as HF0. unfold ser_fields in HF. apply seq_inv in HF as (v & vs' & -> & HC & HF). cbn [snd] in HC.
  cbn [de_z80]. assert (E : seq_tag h (v :: vs') = Some (Some tag, vs')).
  { destruct Hh as [->| ->]; cbn [seq_tag]; rewrite (k_str _ _ HC); reflexivity. }
  rewrite E. cbn [obind fst snd]. rewrite (visit_seq_ok toq deq f tag c vs' W HQ HF).
  destruct HT as [<-|[<-|[<-|[]]]]; reflexivity.
Qed.
End Trip.
Lemma any_seq {Q} (toq : Q -> qstate) tag (c : cpu Q) h vs : wf c ->
  Forall2 (fun f v => carries0 (snd f) v) (ser_fields tag (fun q => ser_q (toq q)) c) vs -> h = None \/ h = Some 18%nat ->
  de_any (VSeq h vs) = build_any (fun _ => true) tag toq c.
Proof.
  intros W HF Hh. unfold ser_fields in HF. apply seq_inv in HF as (v & vs' & -> & HC & HF). cbn [snd] in HC.
  cbn [de_any]. assert (E : seq_tag h (v :: vs') = Some (Some tag, vs')).
  { destruct Hh as [->| ->]; cbn [seq_tag]; rewrite (k_str _ _ HC); reflexivity. }
  rewrite E. cbn [obind fst snd].
  rewrite (visit_seq_ok toq de_q toq tag c vs' W (fun v => k_q _ v) HF), (visit_seq_ok toq de_unit (fun _ => tt) tag c vs' W (fun v => k_unit _ v) HF).
  unfold build_any, into_flavour, defaulted. cbn. reflexivity.
Qed.
Lemma filter_all {A} (l : list A) : filter (fun _ => true) l = l.
Proof. induction l as [|x l IH]; [reflexivity|]. cbn. now rewrite IH. Qed.
Lemma keep_all : drops_ok (fun _ => true).
Proof. intros s H. discriminate H. Qed.

Section Four.
Context {Q : Type} (toq : Q -> qstate) (tag : string) (c : cpu Q).
Definition src := SStruct (ser_fields tag (fun q => ser_q (toq q)) c).
Definition flav_default (keep : string -> bool) (q : qstate) : qstate := if keep "flavour" then q else q_default.
Lemma maps keep l : wf c -> drops_ok keep -> map_of false keep src l ->
  de_nmos (VMap l) = DOk (into_flavour (fun q => flav_default keep (toq q)) (defaulted keep (flavour c) c)) /\
  de_cmos (VMap l) = DOk (into_flavour (fun _ => tt) (defaulted keep (flavour c) c)) /\
  de_bm1 (VMap l) = DOk (into_flavour (fun q => flav_default keep (toq q)) (defaulted keep (flavour c) c)) /\
  de_any (VMap l) = build_any keep (if keep "type" then tag else "NMOS") toq c.
Proof.
  intros W D (fs & fs' & E & HP & HF). injection E as <-.
  unfold de_nmos, de_cmos, de_bm1. cbn [de_z80 de_any].
  rewrite !(visit_map_ok keep toq tag c fs' l _ W D HP HF). unfold build_any. cbn [String.eqb Ascii.eqb Bool.eqb].
  unfold flav_default, into_flavour, defaulted. cbn. destruct (keep "flavour"); repeat split.
Qed.
Lemma trips v : wf c -> In tag ["NMOS"; "CMOS"; "BM1"] -> carries0 src v ->
  de_nmos v = DOk (into_flavour toq c) /\ de_cmos v = DOk (into_flavour (fun _ => tt) c) /\ de_bm1 v = DOk (into_flavour toq c) /\
  de_any v = build_any (fun _ => true) tag toq c.
Proof.
  intros W HT. unfold src. inversion 1 as [| | | | | | | | | | | |? vs hint HF Hh E1 E2|? fs' l HP HF]; subst.
  - split; [|split; [|split]].
    + exact (de_seq toq toq tag c hint vs _ _ _ W (fun v => k_q _ v) HT HF Hh).
    + exact (de_seq toq (fun _ => tt) tag c hint vs _ _ _ W (fun v => k_unit _ v) HT HF Hh).
    + exact (de_seq toq toq tag c hint vs _ _ _ W (fun v => k_q _ v) HT HF Hh).
    + exact (any_seq toq tag c hint vs W HF Hh).
  - assert (M : map_of false (fun _ => true) src l).
    { exists (ser_fields tag (fun q => ser_q (toq q)) c), fs'. rewrite filter_all. now repeat split. }
    exact (maps (fun _ => true) l W keep_all M).
Qed.
End Four.

(** ** Sequences without a tag *)
Lemma tagless {Q Q'} (toq : Q -> qstate) (deq : val -> option Q') (f : Q -> Q') tag (c : cpu Q) vs tag' unwrap : wf c ->
  (forall v, carries0 (ser_q (toq (flavour c))) v -> deq v = Some (f (flavour c))) ->
  Forall2 (fun f v => carries0 (snd f) v) (tl (ser_fields tag (fun q => ser_q (toq q)) c)) vs ->
  de_z80 tag' unwrap deq (VSeq (Some 17%nat) vs) = DOk (into_flavour f c) /\ de_z80 tag' unwrap deq (VSeq None vs) = DErr.
Proof.
  intros W HQ HF. split.
  - cbn [de_z80 seq_tag obind fst snd]. now rewrite (visit_seq_ok toq deq f tag c vs W HQ HF).
  - unfold ser_fields in HF. cbn [tl] in HF. apply seq_inv in HF as (v & vs' & -> & HC & HF). cbn [snd] in HC.
    cbn [de_z80 seq_tag]. assert (E : de_str v = None) by (inversion HC; reflexivity). rewrite E. reflexivity.
Qed.
Lemma tagless_any {Q} (toq : Q -> qstate) tag (c : cpu Q) vs : wf c ->
  Forall2 (fun f v => carries0 (snd f) v) (tl (ser_fields tag (fun q => ser_q (toq q)) c)) vs ->
  de_any (VSeq (Some 17%nat) vs) = Some (AnyNMOS (into_flavour toq c)) /\ de_any (VSeq None vs) = None.
Proof.
  intros W HF. split.
  - cbn [de_any seq_tag obind fst snd]. now rewrite (visit_seq_ok toq de_q toq tag c vs W (fun v => k_q _ v) HF).
  - unfold ser_fields in HF. cbn [tl] in HF. apply seq_inv in HF as (v & vs' & -> & HC & HF). cbn [snd] in HC.
    cbn [de_any seq_tag]. assert (E : de_str v = None) by (inversion HC; reflexivity). rewrite E. reflexivity.
Qed.

(** ** What is rejected *)
Lemma read_fields_inv l : forall a a', read_fields l a = Some a' ->
  (forall f x, a f = Some x -> a' f = Some x) /\
  (forall k v, In (k, v) l -> exists f x, keyof z80_keys k = Some f /\ next_value f v = Some x /\ a f = None /\ a' f = Some x) /\
  (forall f x, a' f = Some x -> a f = Some x \/ exists k v, In (k, v) l /\ keyof z80_keys k = Some f /\ next_value f v = Some x).
Proof.
  induction l as [|[k v] l IH]; intros a a' E.
  - injection E as <-. split; [auto|]. split; [intros ? ? []|auto].
  - cbn [read_fields] in E. destruct (keyof z80_keys k) as [f|] eqn:Ek; [cbn [obind] in E|discriminate E].
    destruct (a f) eqn:Ea; [discriminate E|]. destruct (next_value f v) as [x|] eqn:Ev; [cbn [obind] in E|discriminate E].
    destruct (IH _ _ E) as (H1 & H2 & H3).
    assert (Hf : set_local a f x f = Some x) by (unfold set_local; now destruct (field_eq f f)).
    split; [|split].
    + intros g y Hg. apply H1. unfold set_local. destruct (field_eq f g) as [->|]; [congruence|exact Hg].
    + intros k' v' [Hi|Hi].
      * injection Hi as <- <-. exists f, x. repeat split; auto.
      * destruct (H2 _ _ Hi) as (f' & x' & B1 & B2 & B3 & B4). exists f', x'. repeat split; auto.
        unfold set_local in B3. destruct (field_eq f f') as [->|]; [discriminate B3|exact B3].
    + intros g y Hg. destruct (H3 _ _ Hg) as [Hs|(k' & v' & C1 & C2 & C3)].
      * unfold set_local in Hs. destruct (field_eq f g) as [<-|]; [|now left]. injection Hs as <-. right. exists k, v. split; [now left|auto].
      * right. exists k', v'. split; [now right|auto].
Qed.
Lemma read_fields_app l1 l2 a : read_fields (l1 ++ l2) a = (a1 <~ read_fields l1 a; read_fields l2 a1).
Proof.
  revert a. induction l1 as [|[k v] l1 IH]; intros a; [reflexivity|]. cbn [app read_fields].
  destruct (keyof z80_keys k) as [f|]; [cbn [obind]|reflexivity]. destruct (a f); [reflexivity|]. destruct (next_value f v); [cbn [obind]; apply IH|reflexivity].
Qed.
(** [visit_map] fails when the fields cannot be read. *)
Lemma visit_map_none l force : read_fields l no_locals = None -> visit_map l force = None.
Proof. intros E. unfold visit_map. now rewrite E. Qed.
Lemma reject_all l : (forall force, visit_map l force = None) -> de_nmos (VMap l) = DErr /\ de_cmos (VMap l) = DErr /\ de_bm1 (VMap l) = DErr /\ de_any (VMap l) = None.
Proof. intros H. unfold de_nmos, de_cmos, de_bm1. cbn [de_z80 de_any]. rewrite !H. repeat split. Qed.
Lemma unknown_key l k v : In (k, v) l -> keyof z80_keys k = None -> read_fields l no_locals = None.
Proof.
  intros Hi Hk. destruct (read_fields l no_locals) as [a|] eqn:E; [|reflexivity].
  destruct (read_fields_inv _ _ _ E) as (_ & H & _). destruct (H k v Hi) as (f & x & C & _). congruence.
Qed.
Lemma duplicate_key l1 l2 k k' v v' f : keyof z80_keys k = Some f -> keyof z80_keys k' = Some f -> In (k, v) l1 -> In (k', v') l2 ->
  read_fields (l1 ++ l2) no_locals = None.
Proof.
  intros Hk Hk' Hi Hi'. rewrite read_fields_app. destruct (read_fields l1 no_locals) as [a|] eqn:E; [cbn [obind]|reflexivity].
  destruct (read_fields l2 a) as [a'|] eqn:E'; [|reflexivity].
  destruct (read_fields_inv _ _ _ E) as (_ & H & _). destruct (H k v Hi) as (f1 & x1 & C1 & _ & _ & C2).
  destruct (read_fields_inv _ _ _ E') as (_ & H' & _). destruct (H' k' v' Hi') as (f2 & x2 & C3 & _ & C4 & _). congruence.
Qed.
Lemma missing_field l f : (forall k v, In (k, v) l -> keyof z80_keys k <> Some f) -> ~ In (field_name f) may_drop -> forall force, visit_map l force = None.
Proof.
  intros H Hm force. unfold visit_map. destruct (read_fields l no_locals) as [a|] eqn:E; [cbn [obind]|reflexivity].
  destruct (read_fields_inv _ _ _ E) as (_ & _ & H3).
  assert (Ef : a f = None).
  { destruct (a f) as [x|] eqn:Ea; [|reflexivity]. destruct (H3 _ _ Ea) as [C|(k & v & C1 & C2 & _)]; [discriminate C|]. destruct (H k v C1 C2). }
  clear H H3 E.
  destruct f; try (exfalso; apply Hm; cbn; tauto); clear Hm;
  repeat (match goal with
  | |- context [a ?g] => match goal with H : a g = None |- _ => rewrite H | |- _ => let y := fresh in destruct (a g) as [y|]; [destruct y|] end
  end; cbn [g_pair g_regs g_index g_bool g_im g_prefix obind]; try reflexivity).
Qed.
Lemma unknown_tag l s : In ("type", VStr s) l -> ~ In s ["NMOS"; "CMOS"; "BM1"] -> de_any (VMap l) = None.
Proof.
  intros Hi Hs. cbn [de_any]. unfold visit_map. destruct (read_fields l no_locals) as [a|] eqn:E; [cbn [obind]|reflexivity].
  destruct (read_fields_inv _ _ _ E) as (_ & H & _). destruct (H _ _ Hi) as (f & x & C1 & C2 & _ & C3). cbv in C1. injection C1 as <-.
  cbn [next_value de_str option_map] in C2. injection C2 as <-.
  rewrite C3. cbn [g_str or_else].
  assert (E1 : (s =? "NMOS")%string = false) by (apply String.eqb_neq; intros ->; apply Hs; cbn; tauto).
  assert (E2 : (s =? "CMOS")%string = false) by (apply String.eqb_neq; intros ->; apply Hs; cbn; tauto).
  assert (E3 : (s =? "BM1")%string = false) by (apply String.eqb_neq; intros ->; apply Hs; cbn; tauto).
  rewrite E1, E2, E3. clear.
  repeat match goal with
  | |- obind ?x _ = None => destruct x; [cbn [obind]|reflexivity]
  | |- match ?p with (_, _) => _ end = None => destruct p
  end. reflexivity.
Qed.
Lemma unknown_tag_seq h l s : h <> Some 17%nat -> ~ In s ["NMOS"; "CMOS"; "BM1"] -> 
  de_nmos (VSeq h (VStr s :: l)) = DErr /\ de_cmos (VSeq h (VStr s :: l)) = DErr /\ de_bm1 (VSeq h (VStr s :: l)) = DErr /\ de_any (VSeq h (VStr s :: l)) = None.
Proof.
  intros Hh Hs.
  assert (E : seq_tag h (VStr s :: l) = Some (Some s, l)).
  { unfold seq_tag. destruct h as [n|]; [|reflexivity]. do 18 (destruct n as [|n]; [try reflexivity; now destruct Hh|]). reflexivity. }
  assert (E1 : (s =? "NMOS")%string = false) by (apply String.eqb_neq; intros ->; apply Hs; cbn; tauto).
  assert (E2 : (s =? "CMOS")%string = false) by (apply String.eqb_neq; intros ->; apply Hs; cbn; tauto).
  assert (E3 : (s =? "BM1")%string = false) by (apply String.eqb_neq; intros ->; apply Hs; cbn; tauto).
  unfold de_nmos, de_cmos, de_bm1. cbn [de_z80 de_any]. rewrite E. cbn [obind fst snd]. rewrite E1, E2, E3. repeat split.
Qed.

(** ** No panic *)
Lemma visit_map_variant l t a : visit_map l (Some t) = Some a ->
  (t = "NMOS" -> exists c, a = AnyNMOS c) /\ (t = "CMOS" -> exists c, a = AnyCMOS c) /\ (t = "BM1" -> exists c, a = AnyBM1 c).
Proof.
  unfold visit_map. intros E.
  repeat match type of E with
  | obind ?x _ = Some _ => destruct x; [cbn [obind] in E|discriminate E]
  | match ?p with (_, _) => _ end = Some _ => destruct p
  end.
  repeat split; intros ->; cbn in E; injection E as <-; eexists; reflexivity.
Qed.
Lemma no_panic v : de_nmos v <> DPanic /\ de_cmos v <> DPanic /\ de_bm1 v <> DPanic.
Proof.
  unfold de_nmos, de_cmos, de_bm1. destruct v as [| | | | | | | |h l|l]; cbn [de_z80]; try (repeat split; discriminate).
  - repeat split; destruct (obind _ _); discriminate.
  - split; [|split].
    + destruct (visit_map l (Some "NMOS")) as [a|] eqn:E; [|discriminate]. destruct (proj1 (visit_map_variant _ _ _ E) eq_refl) as [c ->]. discriminate.
    + destruct (visit_map l (Some "CMOS")) as [a|] eqn:E; [|discriminate]. destruct (proj1 (proj2 (visit_map_variant _ _ _ E)) eq_refl) as [c ->]. discriminate.
    + destruct (visit_map l (Some "BM1")) as [a|] eqn:E; [|discriminate]. destruct (proj2 (proj2 (visit_map_variant _ _ _ E)) eq_refl) as [c ->]. discriminate.
Qed.

(** ** Results are in range *)
Lemma digits16_range s : forall acc n, word acc -> digits16 s acc = Some n -> word n.
Proof.
  induction s as [|ch s IH]; intros acc n Ha E; cbn [digits16] in E; [injection E as <-; exact Ha|].
  destruct (digit16 ch) as [d|] eqn:Ed; [cbn [obind] in E|discriminate E].
  destruct (acc * 16 + d <=? 65535) eqn:El; [|discriminate E]. apply (IH _ _) in E; [exact E|].
  unfold word in *. unfold digit16 in Ed.
  repeat match type of Ed with (if ?b then _ else _) = _ => let H := fresh in destruct b eqn:H end; try discriminate Ed; injection Ed as <-;
  rewrite ?andb_true_iff, ?Z.leb_le in *; lia.
Qed.
Lemma ok_u8 v n : de_u8 v = Some n -> byte n.
Proof.
  unfold byte. destruct v; cbn [de_u8]; try discriminate;
  match goal with |- context [if ?b then _ else _] => destruct b eqn:E end; try discriminate; intros H; injection H as <-;
  rewrite andb_true_iff, !Z.leb_le in E; lia.
Qed.
Lemma ok_pair v n : val_ok v -> de_pair v = Some n -> word n.
Proof.
  unfold word. destruct v as [|m|m|m|m|s| |w|h l|l]; cbn [de_pair val_ok]; try discriminate; intros Ho E.
  - destruct (m <=? 65535) eqn:El; [|discriminate E]. injection E as <-. apply Z.leb_le in El. lia.
  - destruct ((-32768 <=? m) && (m <=? 32767)); [|discriminate E]. injection E as <-. exact (u16_word m).
  - injection E as <-. exact Ho.
  - injection E as <-. exact (u16_word m).
  - unfold from_str_radix16 in E. destruct (strip_hex s) as [|ch rest]; [discriminate E|].
    assert (W0 : word 0) by (unfold word; lia).
    destruct (Ascii.eqb ch "+"); [destruct rest; [discriminate E|]|]; exact (digits16_range _ 0 n W0 E).
  - destruct l as [|v1 [|v2 [|? ?]]]; try discriminate E.
    destruct (de_u8 v1) as [lo|] eqn:E1; [cbn [obind] in E|discriminate E]. destruct (de_u8 v2) as [hi|] eqn:E2; [cbn [obind] in E|discriminate E].
    injection E as <-. apply mk16_word; eapply ok_u8; eassumption.
Qed.
Lemma ok_in h l v : val_ok (VSeq h l) -> In v l -> val_ok v.
Proof. cbn [val_ok]. induction l as [|w l IH]; [intros _ []|]. intros [H1 H2] [<-|H]; [exact H1|exact (IH H2 H)]. Qed.
Lemma ok_entry l k v : val_ok (VMap l) -> In (k, v) l -> val_ok v.
Proof. cbn [val_ok]. induction l as [|[k' w] l IH]; [intros _ []|]. intros [H1 H2] [H|H]; [injection H as _ <-; exact H1|exact (IH H2 H)]. Qed.
Lemma read_named_inv {X} (d : val -> option X) keys l : forall acc acc', read_named d keys l acc = Some acc' ->
  forall i x, acc' i = Some x -> acc i = Some x \/ exists k v, In (k, v) l /\ d v = Some x.
Proof.
  induction l as [|[k v] l IH]; intros acc acc' E i x Hx; cbn [read_named] in E; [injection E as <-; now left|].
  destruct (keyof keys k) as [j|].
  - destruct (acc j); [discriminate E|]. destruct (d v) as [y|] eqn:Ed; [cbn [obind] in E|discriminate E].
    destruct (IH _ _ E i x Hx) as [H|(k' & v' & H1 & H2)].
    + unfold upd_nat in H. destruct (Nat.eqb j i); [|now left]. injection H as <-. right. exists k, v. split; [now left|exact Ed].
    + right. exists k', v'. split; [now right|exact H2].
  - destruct (IH _ _ E i x Hx) as [H|(k' & v' & H1 & H2)]; [now left|]. right. exists k', v'. split; [now right|exact H2].
Qed.
Lemma ok_named keys l acc' i x : val_ok (VMap l) -> read_named de_pair keys l none_nat = Some acc' -> acc' i = Some x -> word x.
Proof.
  intros Ho E Hx. destruct (read_named_inv _ _ _ _ _ E i x Hx) as [H|(k & v & H1 & H2)]; [discriminate H|].
  exact (ok_pair v x (ok_entry _ _ _ Ho H1) H2).
Qed.
Lemma ok_regs v b d h : val_ok v -> de_regs v = Some (b, d, h) -> word b /\ word d /\ word h.
Proof.
  destruct v as [| | | | | | | |hint l|l]; cbn [de_regs]; try discriminate; intros Ho E.
  - destruct l as [|v1 [|v2 [|v3 l]]]; try discriminate E.
    destruct (de_pair v1) eqn:E1; [cbn [obind] in E|discriminate E]. destruct (de_pair v2) eqn:E2; [cbn [obind] in E|discriminate E].
    destruct (de_pair v3) eqn:E3; [cbn [obind] in E|discriminate E]. injection E as -> -> ->.
    split; [|split]; (eapply ok_pair; [|eassumption]; eapply ok_in; [exact Ho|cbn; tauto]).
  - destruct (read_named _ _ _ _) as [acc|] eqn:Er; [cbn [obind] in E|discriminate E].
    destruct (acc 0%nat) eqn:E1; [cbn [obind] in E|discriminate E]. destruct (acc 1%nat) eqn:E2; [cbn [obind] in E|discriminate E].
    destruct (acc 2%nat) eqn:E3; [cbn [obind] in E|discriminate E]. injection E as -> -> ->.
    split; [|split]; (eapply ok_named; [exact Ho|exact Er|eassumption]).
Qed.
Lemma ok_index v x y : val_ok v -> de_index v = Some (x, y) -> word x /\ word y.
Proof.
  destruct v as [| | | | | | | |hint l|l]; cbn [de_index]; try discriminate; intros Ho E.
  - destruct l as [|v1 [|v2 l]]; try discriminate E.
    destruct (de_pair v1) eqn:E1; [cbn [obind] in E|discriminate E]. destruct (de_pair v2) eqn:E2; [cbn [obind] in E|discriminate E].
    injection E as -> ->. split; (eapply ok_pair; [|eassumption]; eapply ok_in; [exact Ho|cbn; tauto]).
  - destruct (read_named _ _ _ _) as [acc|] eqn:Er; [cbn [obind] in E|discriminate E].
    destruct (acc 0%nat) eqn:E1; [cbn [obind] in E|discriminate E]. destruct (acc 1%nat) eqn:E2; [cbn [obind] in E|discriminate E].
    injection E as -> ->. split; (eapply ok_named; [exact Ho|exact Er|eassumption]).
Qed.
Definition fval_ok (x : fval) : Prop :=
  match x with XPair n => word n | XRegs b d h => word b /\ word d /\ word h | XIndex a b => word a /\ word b | XU8 n => byte n | _ => True end.
Lemma ok_next f v x : val_ok v -> next_value f v = Some x -> fval_ok x.
Proof.
  intros Ho E. destruct f; cbn [next_value] in E;
  repeat match type of E with
  | option_map _ ?y = Some _ => let E' := fresh "E'" in destruct y eqn:E'; [cbn [option_map] in E; injection E as <-; cbn [fval_ok]|discriminate E]
  | obind ?y _ = Some _ => let E' := fresh "E'" in destruct y as [p|] eqn:E'; [cbn [obind] in E|discriminate E]
  | match ?p with (_, _) => _ end = Some _ => destruct p
  | Some _ = Some _ => injection E as <-; cbn [fval_ok]
  end; first [exact I | eapply ok_pair; eassumption | eapply ok_u8; eassumption | eapply ok_regs; eassumption | eapply ok_index; eassumption].
Qed.
Lemma ok_locals l a f x : val_ok (VMap l) -> read_fields l no_locals = Some a -> a f = Some x -> fval_ok x.
Proof.
  intros Ho E Hx. destruct (read_fields_inv _ _ _ E) as (_ & _ & H). destruct (H f x Hx) as [C|(k & v & H1 & _ & H2)]; [discriminate C|].
  exact (ok_next _ _ _ (ok_entry _ _ _ Ho H1) H2).
Qed.
Definition any_wf (a : z80any) : Prop := match a with AnyNMOS c => wf c | AnyCMOS c => wf c | AnyBM1 c => wf c end.
Lemma visit_map_wf l force a : val_ok (VMap l) -> visit_map l force = Some a -> any_wf a.
Proof.
  intros Ho. unfold visit_map. destruct (read_fields l no_locals) as [m|] eqn:Er; [cbn [obind]|discriminate].
  assert (HL : forall f x, m f = Some x -> fval_ok x) by (intros f x; exact (ok_locals l m f x Ho Er)). clear Er.
  assert (HP : forall f n, g_pair (m f) = Some n -> word n).
  { intros f n. destruct (m f) as [[]|] eqn:E; cbn; try discriminate. intros Hn. injection Hn as <-. exact (HL _ _ E). }
  assert (HR : forall f b d h, g_regs (m f) = Some (b, d, h) -> word b /\ word d /\ word h).
  { intros f b d h. destruct (m f) as [[]|] eqn:E; cbn; try discriminate. intros Hn. injection Hn as <- <- <-. exact (HL _ _ E). }
  assert (HX : forall f x y, g_index (m f) = Some (x, y) -> word x /\ word y).
  { intros f x y. destruct (m f) as [[]|] eqn:E; cbn; try discriminate. intros Hn. injection Hn as <- <-. exact (HL _ _ E). }
  assert (HM : word (or_else (g_pair (m FMemptr)) 0)).
  { destruct (g_pair (m FMemptr)) as [n|] eqn:E; cbn [or_else]; [exact (HP _ _ E)|unfold word; lia]. }
  assert (HU : forall w, byte (or_else (g_u8 (m FR)) (lo8 w))).
  { intros w. destruct (m FR) as [[]|] eqn:E; cbn [g_u8 or_else]; try apply lo8_byte. exact (HL _ _ E). }
  generalize dependent (or_else (g_pair (m FMemptr)) 0). intros mp HM.
  repeat match goal with
  | |- obind ?x _ = Some _ -> _ => let E := fresh "E" in destruct x as [?|] eqn:E; [cbn [obind]|discriminate]
  | |- match ?p with (_, _) => _ end = Some _ -> _ => destruct p
  end.
  repeat match goal with
  | H : g_pair (m _) = Some _ |- _ => apply HP in H | H : g_regs (m _) = Some _ |- _ => apply HR in H as (? & ? & ?)
  | H : g_index (m _) = Some _ |- _ => apply HX in H as (? & ?)
  end.
  repeat match goal with |- (if ?b then _ else _) = Some _ -> _ => destruct b end; try discriminate;
  intros Ha; injection Ha as <-; cbn [any_wf]; constructor; cbn; auto.
Qed.
Lemma visit_seq_wf {Q} (deq : val -> option Q) h l c : val_ok (VSeq h l) -> visit_seq deq l = Some c -> wf c.
Proof.
  intros Ho. unfold visit_seq.
  do 17 (destruct l as [|? l]; [discriminate|]).
  assert (HO : forall v, In v (v :: l) -> True) by auto. clear HO.
  cbn [val_ok] in Ho. destruct Ho as (O1 & O2 & O3 & O4 & O5 & O6 & O7 & O8 & O9 & O10 & O11 & O12 & O13 & O14 & O15 & O16 & O17 & _).
  repeat match goal with
  | |- obind ?x _ = Some _ -> _ => let E := fresh "E" in destruct x as [?|] eqn:E; [cbn [obind]|discriminate]
  | |- match ?p with (_, _) => _ end = Some _ -> _ => destruct p
  end.
  intros Ha; injection Ha as <-.
  repeat match goal with
  | H : de_pair ?v = Some _ |- _ => apply ok_pair in H; [|assumption]
  | H : de_u8 ?v = Some _ |- _ => apply ok_u8 in H
  | H : de_regs ?v = Some _ |- _ => apply ok_regs in H as (? & ? & ?); [|assumption]
  | H : de_index ?v = Some _ |- _ => apply ok_index in H as (? & ?); [|assumption]
  end.
  constructor; cbn; assumption.
Qed.
Lemma val_ok_tail h v l : val_ok (VSeq h (v :: l)) -> val_ok (VSeq h l).
Proof. cbn [val_ok]. now intros [_ H]. Qed.
Lemma seq_tag_tail h l t l' : seq_tag h l = Some (t, l') -> val_ok (VSeq h l) -> val_ok (VSeq h l').
Proof.
  assert (G : match l with v :: l => s <~ de_str v; Some (Some s, l) | [] => None end = Some (t, l') -> val_ok (VSeq h l) -> val_ok (VSeq h l')).
  { destruct l as [|v l]; [discriminate|]. destruct (de_str v); [cbn [obind]|discriminate]. intros E. injection E as _ <-. apply val_ok_tail. }
  intros E. unfold seq_tag in E. destruct h as [n|]; [|exact (G E)].
  do 17 (destruct n as [|n]; [exact (G E)|]). destruct n as [|n]; [|exact (G E)]. injection E as _ <-. auto.
Qed.
Lemma de_z80_wf {Q} tag unwrap (deq : val -> option Q) v c : (forall a c, unwrap a = Some c -> any_wf a -> wf c) -> val_ok v -> de_z80 tag unwrap deq v = DOk c -> wf c.
Proof.
  intros HU Ho. destruct v as [| | | | | | | |h l|l]; cbn [de_z80]; try discriminate.
  - destruct (seq_tag h l) as [[t l']|] eqn:Es; [cbn [obind fst snd]|discriminate]. pose proof (seq_tag_tail _ _ _ _ Es Ho) as Ho'.
    assert (G : to_dres (visit_seq deq l') = DOk c -> wf c).
    { destruct (visit_seq deq l') as [c'|] eqn:Ev; [|discriminate]. intros E. injection E as <-. exact (visit_seq_wf deq h l' c' Ho' Ev). }
    destruct t as [t|]; [|exact G]. destruct (_ || _)%bool; [exact G|discriminate].
  - destruct (visit_map l (Some tag)) as [a|] eqn:Ev; [|discriminate]. destruct (unwrap a) eqn:Eu; [|discriminate].
    intros E. injection E as <-. exact (HU _ _ Eu (visit_map_wf _ _ _ Ho Ev)).
Qed.
Lemma in_range v : val_ok v ->
  (forall c, de_nmos v = DOk c -> wf c) /\ (forall c, de_cmos v = DOk c -> wf c) /\ (forall c, de_bm1 v = DOk c -> wf c) /\
  (forall a, de_any v = Some a -> match a with AnyNMOS c => wf c | AnyCMOS c => wf c | AnyBM1 c => wf c end).
Proof.
  intros Ho. split; [|split; [|split]].
  1-3: intros c; apply de_z80_wf; [|exact Ho]; intros [] ? E; try discriminate E; injection E as <-; auto.
  intros a. destruct v as [| | | | | | | |h l|l]; cbn [de_any]; try discriminate.
  - destruct (seq_tag h l) as [[t l']|] eqn:Es; [cbn [obind fst snd]|discriminate]. pose proof (seq_tag_tail _ _ _ _ Es Ho) as Ho'.
    assert (G : forall (Q : Type) (deq : val -> option Q) k, (forall c, wf c -> any_wf (k c)) -> option_map k (visit_seq deq l') = Some a -> any_wf a).
    { intros Q deq k Hk. destruct (visit_seq deq l') as [c'|] eqn:Ev; [|discriminate]. intros E. injection E as <-. apply Hk. exact (visit_seq_wf deq h l' c' Ho' Ev). }
    destruct t as [t|]; [|refine (G _ de_q AnyNMOS _); auto].
    destruct (t =? "NMOS")%string; [refine (G _ de_q AnyNMOS _); auto|]. destruct (t =? "CMOS")%string; [refine (G _ de_unit AnyCMOS _); auto|].
    destruct (t =? "BM1")%string; [refine (G _ de_q AnyBM1 _); auto|discriminate].
  - exact (visit_map_wf l None a Ho).
Qed.

(** ** Register pairs *)
Lemma digit16_digit up d : 0 <= d < 16 -> digit16 (digit up d) = Some d.
Proof.
  intros Hd. assert (HI : In d (map Z.of_nat (seq 0 16))) by (apply in_map_iff; exists (Z.to_nat d); split; [lia|apply in_seq; lia]).
  revert HI. cbn. intros HI. repeat destruct HI as [<-|HI]; try (destruct up; reflexivity). destruct HI.
Qed.
Lemma digits16_digits up fuel : forall n acc, 0 <= n < 16 ^ Z.of_nat fuel -> n <= 65535 -> digits16 (digits fuel 16 up n acc) 0 = digits16 acc n.
Proof.
  induction fuel as [|fuel IH]; intros n acc Hn Hw.
  - cbn in Hn. replace n with 0 by lia. reflexivity.
  - cbn [digits]. assert (Hm : 0 <= n mod 16 < 16) by (apply Z.mod_pos_bound; lia). pose proof (Z.div_mod n 16 ltac:(lia)) as E.
    destruct (Z.eqb_spec (n / 16) 0) as [E0|E0].
    + cbn [digits16]. rewrite digit16_digit by exact Hm. cbn [obind]. replace (0 * 16 + n mod 16) with n by lia. replace (n <=? 65535) with true by lia. reflexivity.
    + rewrite IH.
      * cbn [digits16]. rewrite digit16_digit by exact Hm. cbn [obind]. replace (n / 16 * 16 + n mod 16) with n by lia. replace (n <=? 65535) with true by lia. reflexivity.
      * rewrite Nat2Z.inj_succ, Z.pow_succ_r in Hn by lia. split; [apply Z.div_pos; lia|]. apply Z.div_lt_upper_bound; lia.
      * lia.
Qed.
Lemma digits16_zeros k s : digits16 (repc k "0" ++ s) 0 = digits16 s 0.
Proof. induction k as [|k IH]; [reflexivity|]. cbn. exact IH. Qed.
Definition hexchar (ch : ascii) : Prop := digit16 ch <> None.
Fixpoint hexstr (s : string) : Prop := match s with EmptyString => True | String ch s => hexchar ch /\ hexstr s end.
Lemma hexstr_app s t : hexstr s -> hexstr t -> hexstr (s ++ t).
Proof. induction s as [|ch s IH]; [auto|]. intros [H1 H2] H. split; [exact H1|now apply IH]. Qed.
Lemma hexstr_zeros k : hexstr (repc k "0").
Proof. induction k as [|k IH]; [exact I|]. split; [discriminate|exact IH]. Qed.
Lemma hexstr_digits up fuel : forall n acc, hexstr acc -> hexstr (digits fuel 16 up n acc).
Proof.
  induction fuel as [|fuel IH]; intros n acc Ha; [exact Ha|]. cbn [digits].
  assert (Hs : hexstr (String (digit up (n mod 16)) acc)).
  { split; [|exact Ha]. unfold hexchar. rewrite digit16_digit by (apply Z.mod_pos_bound; lia). discriminate. }
  destruct (n / 16 =? 0); [exact Hs|now apply IH].
Qed.
Lemma strip_hexstr s : hexstr s -> strip_hex s = s.
Proof.
  destruct s as [|ch rest]; [reflexivity|]. intros [H1 H2]. cbn [strip_hex].
  destruct (Ascii.eqb_spec ch "$") as [->|_]; [exfalso; apply H1; reflexivity|].
  destruct (Ascii.eqb_spec ch "0") as [->|_]; [|reflexivity]. destruct rest as [|ch2 rest2]; [reflexivity|].
  destruct (Ascii.eqb_spec ch2 "x") as [->|_]; [exfalso; apply (proj1 H2); reflexivity|reflexivity].
Qed.
Lemma radix_hexstr s : hexstr s -> s <> ""%string -> from_str_radix16 s = digits16 s 0.
Proof.
  destruct s as [|ch rest]; [congruence|]. intros [H1 _] _. cbn [from_str_radix16].
  destruct (Ascii.eqb_spec ch "+") as [->|_]; [exfalso; apply H1; reflexivity|reflexivity].
Qed.
Lemma digits_acc_ne up fuel : forall n acc, acc <> ""%string -> digits fuel 16 up n acc <> ""%string.
Proof. induction fuel as [|fuel IH]; intros n acc Ha; [exact Ha|]. cbn [digits]. destruct (n / 16 =? 0); [discriminate|apply IH; discriminate]. Qed.
Lemma num_ne up n : num 16 up n <> ""%string.
Proof.
  assert (G : forall k, digits (S k) 16 up n "" <> ""%string) by (intros k; cbn [digits]; destruct (n / 16 =? 0); [discriminate|apply digits_acc_ne; discriminate]).
  exact (G 31%nat).
Qed.
Lemma app_ne s t : t <> ""%string -> (s ++ t)%string <> ""%string.
Proof. destruct s; [auto|discriminate]. Qed.
Lemma pair_hex up w n pre : word n -> In pre [""; "$"; "0x"] -> de_pair (VStr (pre ++ hex up w n)) = Some n.
Proof.
  unfold word. intros Hn Hp. cbn [de_pair].
  assert (Hh : hexstr (hex up w n)) by (unfold hex, zfill; apply hexstr_app; [apply hexstr_zeros|apply hexstr_digits; exact I]).
  assert (E : strip_hex (pre ++ hex up w n) = hex up w n) by (destruct Hp as [<-|[<-|[<-|[]]]]; [exact (strip_hexstr _ Hh)|reflexivity|reflexivity]).
  rewrite E, radix_hexstr; [|exact Hh|unfold hex, zfill; apply app_ne, num_ne].
  unfold hex, zfill. rewrite digits16_zeros. unfold num. rewrite digits16_digits; [reflexivity| |lia].
  split; [lia|]. apply Z.lt_trans with 65536; [lia|reflexivity].
Qed.
Lemma pair_signed n : word n -> (de_pair (VI n) = Some n <-> n < 0x8000) /\ (de_pair (VI n) = None <-> 0x8000 <= n).
Proof.
  unfold word. intros Hn. cbn [de_pair]. replace (-32768 <=? n) with true by lia. cbn [andb].
  destruct (Z.leb_spec n 32767); (split; split); intros H'; try lia; try discriminate H'; try reflexivity. unfold u16. now rewrite Z.mod_small by lia.
Qed.

(** ** As stated *)
Lemma trip_nmos c v : wf c -> carries0 (ser_nmos c) v ->
  de_nmos v = DOk c /\ de_cmos v = DOk (into_flavour nmos_to_cmos c) /\ de_bm1 v = DOk (into_flavour nmos_to_bm1 c) /\ de_any v = Some (AnyNMOS c).
Proof.
  intros W H. destruct (trips (fun q : qstate => q) "NMOS" c v W ltac:(cbn; tauto) H) as (H1 & H2 & H3 & H4).
  destruct c; repeat split; assumption.
Qed.
Lemma trip_cmos c v : wf c -> carries0 (ser_cmos c) v ->
  de_cmos v = DOk c /\ de_nmos v = DOk (into_flavour cmos_to_nmos c) /\ de_bm1 v = DOk (into_flavour cmos_to_bm1 c) /\ de_any v = Some (AnyCMOS c).
Proof.
  intros W H. destruct (trips cmos_to_nmos "CMOS" c v W ltac:(cbn; tauto) H) as (H1 & H2 & H3 & H4).
  destruct c as [? ? ? ? ? ? ? ? ? ? ? ? ? ? ? ? ? ? ? ? ? []]; repeat split; assumption.
Qed.
Lemma trip_bm1 c v : wf c -> carries0 (ser_bm1 c) v ->
  de_bm1 v = DOk c /\ de_nmos v = DOk (into_flavour bm1_to_nmos c) /\ de_cmos v = DOk (into_flavour bm1_to_cmos c) /\ de_any v = Some (AnyBM1 c).
Proof.
  intros W H. destruct (trips (fun q : qstate => q) "BM1" c v W ltac:(cbn; tauto) H) as (H1 & H2 & H3 & H4).
  destruct c; repeat split; assumption.
Qed.
Lemma trip_any a v : match a with AnyNMOS c => wf c | AnyCMOS c => wf c | AnyBM1 c => wf c end -> carries0 (ser_any a) v ->
  de_any v = Some a /\ de_nmos v = DOk (any_into_nmos_cpu a) /\ de_cmos v = DOk (any_into_cmos_cpu a) /\ de_bm1 v = DOk (any_into_bm1_cpu a).
Proof.
  destruct a as [c|c|c]; intros W H.
  - destruct (trip_nmos c v W H) as (H1 & H2 & H3 & H4). destruct c; repeat split; assumption.
  - destruct (trip_cmos c v W H) as (H1 & H2 & H3 & H4). destruct c; repeat split; assumption.
  - destruct (trip_bm1 c v W H) as (H1 & H2 & H3 & H4). destruct c; repeat split; assumption.
Qed.
Lemma drop_nmos keep c l : wf c -> (forall s, keep s = false -> In s may_drop) -> map_of false keep (ser_nmos c) l ->
  de_nmos (VMap l) = DOk (defaulted keep q_default c) /\ de_any (VMap l) = Some (AnyNMOS (defaulted keep q_default c)).
Proof.
  intros W D M. destruct (maps (fun q : qstate => q) "NMOS" c keep l W D M) as (H1 & _ & _ & H4). split.
  - rewrite H1. unfold into_flavour, flav_default, defaulted. cbn. destruct (keep "flavour"); reflexivity.
  - rewrite H4. unfold build_any, into_flavour, defaulted. destruct (keep "type"); cbn; destruct (keep "flavour"); reflexivity.
Qed.
Lemma drop_cmos keep c l : wf c -> (forall s, keep s = false -> In s may_drop) -> map_of false keep (ser_cmos c) l ->
  de_cmos (VMap l) = DOk (defaulted keep tt c) /\
  de_any (VMap l) = Some (if keep "type"%string then AnyCMOS (defaulted keep tt c) else AnyNMOS (into_flavour cmos_to_nmos (defaulted keep tt c))).
Proof.
  intros W D M. destruct (maps cmos_to_nmos "CMOS" c keep l W D M) as (_ & H2 & _ & H4). split.
  - rewrite H2. unfold into_flavour, flav_default, defaulted. cbn. destruct c as [? ? ? ? ? ? ? ? ? ? ? ? ? ? ? ? ? ? ? ? ? []]. cbn. destruct (keep "flavour"); reflexivity.
  - rewrite H4. unfold build_any, into_flavour, defaulted. destruct c as [? ? ? ? ? ? ? ? ? ? ? ? ? ? ? ? ? ? ? ? ? []].
    destruct (keep "type"); cbn; destruct (keep "flavour"); reflexivity.
Qed.
Lemma drop_bm1 keep c l : wf c -> (forall s, keep s = false -> In s may_drop) -> map_of false keep (ser_bm1 c) l ->
  de_bm1 (VMap l) = DOk (defaulted keep q_default c) /\
  de_any (VMap l) = Some (if keep "type"%string then AnyBM1 (defaulted keep q_default c) else AnyNMOS (into_flavour bm1_to_nmos (defaulted keep q_default c))).
Proof.
  intros W D M. destruct (maps (fun q : qstate => q) "BM1" c keep l W D M) as (_ & _ & H3 & H4). split.
  - rewrite H3. unfold into_flavour, flav_default, defaulted. cbn. destruct (keep "flavour"); reflexivity.
  - rewrite H4. unfold build_any, into_flavour, defaulted. destruct (keep "type"); cbn; destruct (keep "flavour"); reflexivity.
Qed.
Lemma keyof_none k : (forall ns, In ns key_names -> ~ In k ns) -> keyof z80_keys k = None.
Proof.
  intros H. unfold keyof. destruct (find _ z80_keys) as [[k' f]|] eqn:E; [|reflexivity]. exfalso.
  apply find_some in E as [Hi E]. cbn [fst] in E. apply String.eqb_eq in E. subst k'.
  assert (Hc : ~ In k (concat key_names)) by (intros C; apply in_concat in C as (ns & C1 & C2); exact (H ns C1 C2)).
  apply Hc. cbn in Hi |- *. repeat destruct Hi as [Hi|Hi]; try contradiction; injection Hi as <- <-; tauto.
Qed.
Lemma keyof_same ns k k' : In ns key_names -> In k ns -> In k' ns -> exists f, keyof z80_keys k = Some f /\ keyof z80_keys k' = Some f.
Proof.
  intros H Hk Hk'. cbn in H. repeat destruct H as [<-|H]; try destruct H;
  cbn in Hk, Hk'; repeat destruct Hk as [<-|Hk]; repeat destruct Hk' as [<-|Hk']; try contradiction; eexists; split; reflexivity.
Qed.
Lemma reject_unknown l k v : In (k, v) l -> (forall ns, In ns key_names -> ~ In k ns) ->
  de_nmos (VMap l) = DErr /\ de_cmos (VMap l) = DErr /\ de_bm1 (VMap l) = DErr /\ de_any (VMap l) = None.
Proof. intros Hi Hk. apply reject_all. intros force. apply visit_map_none. exact (unknown_key l k v Hi (keyof_none k Hk)). Qed.
Lemma reject_twice l1 l2 ns k k' v v' : In ns key_names -> In k ns -> In k' ns -> In (k, v) l1 -> In (k', v') l2 ->
  de_nmos (VMap (l1 ++ l2)) = DErr /\ de_cmos (VMap (l1 ++ l2)) = DErr /\ de_bm1 (VMap (l1 ++ l2)) = DErr /\ de_any (VMap (l1 ++ l2)) = None.
Proof.
  intros Hn Hk Hk' Hi Hi'. apply reject_all. intros force. apply visit_map_none. destruct (keyof_same ns k k' Hn Hk Hk') as (f & E & E').
  exact (duplicate_key l1 l2 k k' v v' f E E' Hi Hi').
Qed.
Lemma name_keys f : exists ns, In ns key_names /\ In (field_name f) ns /\ forall k, keyof z80_keys k = Some f -> In k ns.
Proof.
  assert (G : forall k g, keyof z80_keys k = Some g -> In (k, g) z80_keys).
  { intros k g E. unfold keyof in E. destruct (find _ z80_keys) as [[k' f']|] eqn:Ef; [|discriminate E]. injection E as ->.
    apply find_some in Ef as [Hi E]. cbn [fst] in E. apply String.eqb_eq in E. now subst k'. }
  destruct f;
  match goal with |- context [field_name ?f] => let n := eval cbv in (field_name f) in
    let ns := eval cbv in (hd [] (filter (fun ns => existsb (String.eqb n) ns) key_names)) in exists ns end;
  (split; [cbn; tauto|split; [cbn; tauto|]]); intros k Hk; apply G in Hk; cbn in Hk;
  repeat destruct Hk as [Hk|Hk]; try discriminate Hk; try contradiction; injection Hk as <-; cbn; tauto.
Qed.
Lemma reject_missing l ns : In ns key_names -> (forall s, In s may_drop -> ~ In s ns) -> (forall k v, In (k, v) l -> ~ In k ns) ->
  de_nmos (VMap l) = DErr /\ de_cmos (VMap l) = DErr /\ de_bm1 (VMap l) = DErr /\ de_any (VMap l) = None.
Proof.
  intros Hn Hm Hl. apply reject_all.
  assert (HF : exists f, In (field_name f) ns /\ forall k, keyof z80_keys k = Some f -> In k ns).
  { cbn in Hn. repeat destruct Hn as [<-|Hn]; try contradiction.
    all: match goal with |- context [In _ (?n :: ?t)] =>
      let f := eval cbv in (keyof z80_keys n) in match f with Some ?f => exists f; destruct (name_keys f) as (ns' & H1 & H2 & H3); split; [cbn; tauto|];
        intros k Hk; apply H3 in Hk; cbn in H1, H2; repeat destruct H1 as [<-|H1]; try contradiction; cbn in H2; repeat destruct H2 as [H2|H2]; try discriminate H2; try contradiction; exact Hk end end. }
  destruct HF as (f & Hf & HK). apply missing_field with (f := f).
  - intros k v Hi Hk. exact (Hl k v Hi (HK k Hk)).
  - intros Hd. exact (Hm _ Hd Hf).
Qed.
Lemma tagless_nmos c vs : wf c -> Forall2 (fun f v => carries0 (snd f) v) (tl (ser_fields "NMOS" ser_q c)) vs ->
  de_nmos (VSeq (Some 17%nat) vs) = DOk c /\ de_any (VSeq (Some 17%nat) vs) = Some (AnyNMOS c) /\
  de_nmos (VSeq None vs) = DErr /\ de_any (VSeq None vs) = None.
Proof.
  intros W HF. destruct (tagless (fun q => q) de_q (fun q => q) "NMOS" c vs "NMOS" unwrap_nmos W (fun v => k_q _ v) HF) as [H1 H2].
  destruct (tagless_any (fun q => q) "NMOS" c vs W HF) as [H3 H4]. destruct c; repeat split; assumption.
Qed.
Definition big_cpu : cpu qstate := mkCpu 0x8000 0 0 0 0 0 0 0 0 0 0 0 0 false 0 Mode0 false false false None 0 q_default.
Definition big_val : val := VSeq None
  [VStr "NMOS"; VI 0x8000; VI 0; VSeq None [VI 0; VI 0; VI 0]; VSeq None [VI 0; VI 0; VI 0]; VSeq None [VI 0; VI 0]; VI 0; VI 0; VI 0; VBool false;
   VI 0; VStr "Mode0"; VBool false; VBool false; VBool false; VNone; VI 0; VSeq None [VBool false; VBool false]].
Lemma signed_refuted : exists c v, wf c /\ carries true (ser_nmos c) v /\ de_nmos v = DErr /\ de_any v = None.
Proof.
  exists big_cpu, big_val. split; [constructor; unfold word, byte; cbn; lia|]. split; [|split; reflexivity].
  assert (P : forall n, carries true (ser_pair n) (VI n)) by (intros; apply K_u16_signed; now right).
  apply K_seq; [|now left]. unfold ser_fields, big_cpu. cbn.
  repeat (apply Forall2_cons; [cbn [snd]; first [apply P | apply K_str | apply K_bool | apply K_none | apply K_u8_signed | apply K_variant_name
    | (apply K_seq; [|now left]; repeat (apply Forall2_cons; [cbn [snd]; first [apply P|apply K_bool]|]); apply Forall2_nil)]|]).
  apply Forall2_nil.
Qed.

(** ** Forms of a register pair *)
Lemma de_u8_byte v b : de_u8 v = Some b <-> byte_of v b.
Proof.
  assert (G : forall n (s : bool), (if (0 <=? n) && (n <=? 255) then Some n else None) = Some b <-> (byte b /\ exists s', Some (s, n) = Some (s', b))).
  { intros n s. unfold byte. destruct (Z.leb_spec 0 n), (Z.leb_spec n 255); cbn [andb]; split;
      try discriminate; intros E; try (destruct E as (? & ? & [= _ ->]); first [reflexivity|lia]).
    injection E as ->. split; [lia|eauto]. }
  unfold byte_of. destruct v; cbn [de_u8 number_of]; try apply G; (split; [discriminate|intros (_ & ? & [=])]).
Qed.
Lemma pair_seq h l w : de_pair (VSeq h l) = Some w <->
  exists vl vh lo hi, l = [vl; vh] /\ byte_of vl lo /\ byte_of vh hi /\ w = 256 * hi + lo.
Proof.
  split.
  - destruct l as [|vl [|vh [|x l]]]; cbn [de_pair]; try discriminate. unfold obind.
    destruct (de_u8 vl) as [lo|] eqn:E1; [|discriminate]. destruct (de_u8 vh) as [hi|] eqn:E2; [|discriminate].
    intros [= <-]. apply de_u8_byte in E1, E2. exists vl, vh, lo, hi. unfold mk16. auto.
  - intros (vl & vh & lo & hi & -> & H1 & H2 & ->). apply de_u8_byte in H1, H2. cbn [de_pair]. rewrite H1. cbn [obind].
    rewrite H2. reflexivity.
Qed.
Lemma pair_number v s n w : number_of v = Some (s, n) -> val_ok v ->
  (de_pair v = Some w <-> word w /\ if s then -32768 <= n < 32768 /\ (w = n \/ w = n + 65536) else w = n).
Proof.
  unfold word. intros H Hv. destruct v; try discriminate; injection H as <- <-; cbn [de_pair val_ok] in *; unfold u16.
  - destruct (Z.leb_spec n0 65535); (split; [try discriminate; intros [= <-]; lia|]); intros [? ?]; [f_equal; lia|lia].
  - destruct (Z.leb_spec (-32768) n0), (Z.leb_spec n0 32767); cbn [andb];
      (split; [try discriminate; intros [= <-]; pose proof (Z.div_mod n0 65536); pose proof (Z.mod_pos_bound n0 65536)|]);
      try lia. intros (? & ? & D). f_equal. symmetry. destruct D as [->| ->].
    + apply Z.mod_unique_pos with (q := 0); lia.
    + apply Z.mod_unique_pos with (q := -1); lia.
  - split; [intros [= <-]; lia|intros [? ->]; reflexivity].
  - split; [intros [= <-]; pose proof (Z.div_mod n0 65536); pose proof (Z.mod_pos_bound n0 65536); lia|].
    intros (? & ? & D). f_equal. symmetry. destruct D as [->| ->].
    + apply Z.mod_unique_pos with (q := 0); lia.
    + apply Z.mod_unique_pos with (q := -1); lia.
Qed.
