(** The text of a debugger report fits its buffers. *)
From Coq Require Import ZArith Bool String Ascii List Lia.
From Verif Require Import Base Flags Ops Parse Cpu Flavours Prog Trace Internal Instr Exec Range SpecIsa SpecInt SpecDebug
  SpecLog StampRun IsaCycles DbgRun Format SpecFormat.
Import ListNotations.
Open Scope list_scope.
Open Scope string_scope.
Open Scope Z_scope.
Ltac Zify.zify_post_hook ::= Z.div_mod_to_equations.
Notation len := String.length.

Lemma len_app a b : len (a ++ b) = (len a + len b)%nat.
Proof. induction a as [|c a IH]; cbn; [reflexivity|now rewrite IH]. Qed.
Lemma len_repc n c : len (repc n c) = n.
Proof. induction n as [|n IH]; cbn; [reflexivity|now rewrite IH]. Qed.
Lemma len_digits b up : 1 < b -> forall k fuel n acc, (k < fuel)%nat -> 0 <= n < b ^ (Z.of_nat k + 1) ->
  (len (digits fuel b up n acc) <= len acc + k + 1)%nat.
Proof.
  intros Hb. induction k as [|k IH]; intros [|fuel] n acc Hk Hn; try lia; cbn [digits].
  - change (Z.of_nat 0 + 1) with 1 in Hn. rewrite Z.pow_1_r in Hn. rewrite Z.div_small by lia. cbn. lia.
  - destruct (n / b =? 0); [cbn; lia|].
    assert (Hn' : 0 <= n / b < b ^ (Z.of_nat k + 1)).
    { rewrite Nat2Z.inj_succ in Hn. replace (Z.succ (Z.of_nat k) + 1) with (Z.succ (Z.of_nat k + 1)) in Hn by lia.
      rewrite Z.pow_succ_r in Hn by lia. split; [apply Z.div_pos; lia|]. apply Z.div_lt_upper_bound; lia. }
    specialize (IH fuel (n / b) (String (digit up (n mod b)) acc) ltac:(lia) Hn'). cbn [String.length] in IH. lia.
Qed.
Lemma len_num b up k n : 1 < b -> (k < 32)%nat -> 0 <= n < b ^ (Z.of_nat k + 1) -> (len (num b up n) <= k + 1)%nat.
Proof. intros Hb Hk Hn. exact (len_digits b up Hb k 32 n "" Hk Hn). Qed.
Lemma len_dec8 n : byte n -> (len (dec n) <= 3)%nat.
Proof. intros Hn. apply (len_num 10 false 2); [lia|lia|]. change (10 ^ (Z.of_nat 2 + 1)) with 1000. unfold byte in Hn. lia. Qed.
Lemma len_dec16 n : word n -> (len (dec n) <= 5)%nat.
Proof. intros Hn. apply (len_num 10 false 4); [lia|lia|]. change (10 ^ (Z.of_nat 4 + 1)) with 100000. unfold word in Hn. lia. Qed.
Lemma len_zfill w s : (len s <= w)%nat -> len (zfill w s) = w.
Proof. intros H. unfold zfill. rewrite len_app, len_repc. lia. Qed.
Lemma len_hex8 up n : byte n -> len (hex up 2 n) = 2%nat.
Proof. intros Hn. apply len_zfill. apply (len_num 16 up 1); [lia|lia|]. unfold byte in Hn. cbn. lia. Qed.
Lemma len_hex16 up n : word n -> len (hex up 4 n) = 4%nat.
Proof. intros Hn. apply len_zfill. apply (len_num 16 up 3); [lia|lia|]. unfold word in Hn. cbn. lia. Qed.
Lemma len_hexa8 up n : byte n -> len (hexa up 4 n) = 4%nat.
Proof. intros Hn. unfold hexa. rewrite len_app. change (4 - 2)%nat with 2%nat. fold (hex up 2 n). now rewrite len_hex8. Qed.
Lemma len_hexa16 up n : word n -> len (hexa up 6 n) = 6%nat.
Proof. intros Hn. unfold hexa. rewrite len_app. change (6 - 2)%nat with 4%nat. fold (hex up 4 n). now rewrite len_hex16. Qed.
Lemma len_decs d : -128 <= d < 128 -> (len (decs d) <= 4)%nat.
Proof.
  intros Hd. unfold decs. rewrite len_app. pose proof (len_dec8 (Z.abs d) ltac:(unfold byte; lia)). destruct (d <? 0); cbn [String.length]; lia.
Qed.
Lemma len_padr w s : (len s <= w)%nat -> len (padr w s) = w.
Proof. intros H. unfold padr, pad. cbn [f_prec f_width f_align f_fill]. rewrite !len_app, !len_repc. lia. Qed.
Lemma len_padl w s : (len s <= w)%nat -> len (pad (mkFmt false (Some w) None " "%char (Some AlRight)) s) = w.
Proof. intros H. unfold pad. cbn [f_prec f_width f_align f_fill]. rewrite !len_app, !len_repc. lia. Qed.

(** Upper bounds of operand texts. *)
Definition sel (x : radix) (alt : bool) (a b : nat) : nat := match x with Dec => a | _ => if alt then b else a end.
Definition maxo (x : radix) (alt : bool) (o : opnd) : nat :=
  match o with
  | O_r _ | O_im _ | O_i | O_rf | O_bit _ => 1
  | O_x _ => 3
  | O_g _ | O_gx _ | O_s _ | O_cc _ => 2
  | O_n | O_k _ => sel x alt 3 4
  | O_nn | O_e => sel x alt 5 6
  | O_mnn => sel x alt 7 8
  | O_ind _ | O_jidx => 4
  | O_idx => sel x alt 8 9
  | O_pn => sel x alt 5 6
  | O_pc => 3
  end.
Definition oko (o : opnd) : bool :=
  match o with O_k n => (0 <=? n) && (n <? 256) | O_bit n => (0 <=? n) && (n <? 10) | _ => true end.
Fixpoint joinl (l : list nat) : nat := match l with [] => 0 | [a] => a | a :: l => a + 2 + joinl l end.
Definition limit (x : radix) (alt : bool) : nat := sel x alt 14 15.
Definition fitsb (t : tmpl) : bool :=
  forallb oko (snd t) && (len (fst t) <=? 4)%nat &&
  forallb (fun p => (joinl (map (maxo (fst p) (snd p)) (snd t)) <=? limit (fst p) (snd p))%nat) [(Dec, false); (LHex, true)].
Lemma main_fits px c : byte c -> fitsb (main_text px (decode c)) = true.
Proof.
  intros Hc. destruct px.
  - refine (all_bytesb (fun c => fitsb (main_text true (decode c))) _ c Hc). vm_cast_no_check (eq_refl true).
  - refine (all_bytesb (fun c => fitsb (main_text false (decode c))) _ c Hc). vm_cast_no_check (eq_refl true).
Qed.
Lemma cb_fits c : byte c -> fitsb (let (o, g) := cb_decode c in cb_text o (match g with Some r => O_r r | None => O_ind HL end)) = true.
Proof.
  intros Hc. refine (all_bytesb (fun c => fitsb (let (o, g) := cb_decode c in cb_text o (match g with Some r => O_r r | None => O_ind HL end))) _ c Hc).
  vm_cast_no_check (eq_refl true).
Qed.
Lemma xcb_fits c : byte c -> fitsb (let (o, g) := cb_decode c in xcb_text o g) = true.
Proof. intros Hc. refine (all_bytesb (fun c => fitsb (let (o, g) := cb_decode c in xcb_text o g)) _ c Hc). vm_cast_no_check (eq_refl true). Qed.
Lemma ed_fits c : byte c -> fitsb (ed_text (ed_decode c)) = true.
Proof. intros Hc. refine (all_bytesb (fun c => fitsb (ed_text (ed_decode c))) _ c Hc). vm_cast_no_check (eq_refl true). Qed.
Lemma nth_byte' bs n : Forall byte bs -> byte (nth n bs 0).
Proof.
  intros H. revert n. induction H as [|x l Hx Hl IH]; intros [|n]; cbn; try assumption; try (unfold byte; lia). apply IH.
Qed.
Lemma text_fits px c bs : byte c -> Forall byte bs -> fitsb (text px c bs) = true.
Proof.
  intros Hc Hb. unfold text. pose proof (nth_byte' bs 0 Hb) as H0. pose proof (nth_byte' bs 1 Hb) as H1.
  destruct (decode c) eqn:E; destruct px; try rewrite <- E; try apply main_fits; try assumption;
    [now apply xcb_fits|now apply cb_fits|now apply ed_fits|now apply ed_fits].
Qed.
Lemma last_byte bs : Forall byte bs -> byte (last bs 0).
Proof.
  intros H. induction H as [|x l Hx Hl IH]; [unfold byte; cbn; lia|]. destruct l; [exact Hx|exact IH].
Qed.
Lemma removelast_bytes bs : Forall byte bs -> Forall byte (removelast bs).
Proof. intros H. induction H as [|x l Hx Hl IH]; [constructor|]. cbn. destruct l; [constructor|]. constructor; assumption. Qed.

Ltac lens := repeat (rewrite len_app || (rewrite len_hex8 by assumption) || (rewrite len_hexa8 by assumption)
    || (rewrite len_hex16 by assumption) || (rewrite len_hexa16 by assumption)); cbn [String.length].
Lemma opnd_len x alt px bs nx o : Forall byte bs -> word nx -> oko o = true ->
  (len (arg_str x alt (opnd_val px bs nx o)) <= maxo x alt o)%nat.
Proof.
  intros Hb Hn Ho. pose proof (last_byte bs Hb) as HL. pose proof (last_byte _ (removelast_bytes _ Hb)) as HL2.
  pose proof (nth_byte' bs 1 Hb) as H1.
  assert (HW : word (256 * last bs 0 + last (removelast bs) 0)) by (unfold byte, word in *; lia).
  assert (HR : forall n, word (n mod 65536)) by (intros n; unfold word; apply Z.mod_pos_bound; lia).
  assert (HS : forall a, byte a -> -128 <= SpecDebug.signed a < 128) by (intros a Ha; unfold SpecDebug.signed, byte in *; destruct (Z.ltb_spec a 128); lia).
  destruct o eqn:Eo; cbn [opnd_val maxo];
    lazymatch type of Eo with
    | _ = O_n => idtac | _ = O_k _ => idtac | _ = O_nn => idtac | _ = O_mnn => idtac | _ = O_e => idtac
    | _ = O_idx => idtac | _ = O_pn => idtac | _ = O_bit _ => idtac
    | _ => clear; destruct x, alt; try destruct r; try destruct g; try destruct c; try destruct m; try destruct px as [[]|];
         cbv; repeat constructor
    end.
  - (* O_n *) destruct x, alt; cbn [arg_str arg_disp arg_hex upper sel]; lens; pose proof (len_dec8 _ HL); lia.
  - (* O_k *) cbn [oko] in Ho. assert (Hk : byte n) by (unfold byte; lia).
    destruct x, alt; cbn [arg_str arg_disp arg_hex upper sel]; lens; pose proof (len_dec8 _ Hk); lia.
  - destruct x, alt; cbn [arg_str arg_disp arg_hex upper sel]; lens; pose proof (len_dec16 _ HW); lia.
  - destruct x, alt; cbn [arg_str arg_disp arg_hex addr_disp addr_hex upper sel]; lens; pose proof (len_dec16 _ HW); lia.
  - specialize (HR (nx + SpecDebug.signed (last bs 0))). set (v := (_ mod _)) in *.
    destruct x, alt; cbn [arg_str arg_disp arg_hex upper sel]; lens; pose proof (len_dec16 _ HR); lia.
  - (* O_idx *) specialize (HS _ H1). set (d := SpecDebug.signed _) in *. pose proof (len_decs d HS) as HD.
    assert (Hp : forall p, len (prefix_str p) = 2%nat) by (now intros []).
    assert (Hm : byte (u8 (0 - u8 d))) by (apply u8_byte').
    assert (Hd : 0 <= d -> byte d) by (unfold byte; lia).
    destruct x, alt; cbn [arg_str arg_disp arg_hex addr_disp addr_hex upper sel];
      try (destruct (Z.leb_spec 0 d) as [Hd0|Hd0]; [specialize (Hd Hd0)|clear Hd]); lens; rewrite Hp; lia.
  - destruct x, alt; cbn [arg_str arg_disp arg_hex port_disp port_hex upper sel]; lens; pose proof (len_dec8 _ HL); lia.
  - (* O_bit *) cbn [oko] in Ho. destruct x, alt; cbn [arg_str arg_disp arg_hex upper]; apply (len_num 10 false 0); try lia; cbn; lia.
Qed.
Lemma args_len x alt a : (len (args_str x alt a) <= Nat.max 7 (joinl (map (fun o => len (arg_str x alt o)) (operands a))))%nat.
Proof.
  destruct a as [|a|a b|n a r]; cbn [args_str operands map joinl].
  - cbn. lia.
  - lia.
  - assert (E : (len (arg_str x alt a ++ ", " ++ arg_str x alt b) <= Nat.max 7 (len (arg_str x alt a) + 2 + len (arg_str x alt b)))%nat)
      by (rewrite !len_app; cbn [String.length]; lia).
    destruct a as [| | | | | |[]| | | | |]; try exact E; destruct b as [| | | | | |[]| | | | |]; try exact E. cbn [String.length]. lia.
  - rewrite !len_app. assert (E : arg_str x alt (DBit n) = dec n) by (now destruct x). rewrite E.
    assert (E2 : len (arg_str x alt (DReg8 None r)) = 1%nat) by (now destruct x, r). rewrite E2.
    assert (E3 : len (reg8_str r) = 1%nat) by (now destruct r). rewrite E3. cbn [String.length]. lia.
Qed.
Lemma fits_join t x alt : fitsb t = true -> (joinl (map (maxo x alt) (snd t)) <= limit x alt)%nat.
Proof.
  unfold fitsb. intros H. apply andb_prop in H as [_ H]. cbn [forallb fst snd] in H.
  apply andb_prop in H as [HA H]. apply andb_prop in H as [HB _]. apply Nat.leb_le in HA, HB.
  destruct x, alt; try assumption.
Qed.
Lemma joinl_le : forall (f g : opnd -> nat) l, (forall o, In o l -> (f o <= g o)%nat) -> (joinl (map f l) <= joinl (map g l))%nat.
Proof.
  intros f g l. induction l as [|o l IH]; intros H; [cbn; lia|]. assert (Ho := H o (or_introl eq_refl)).
  assert (IH' := IH (fun o' H' => H o' (or_intror H'))). destruct l as [|o' l]; cbn [map joinl] in *; lia.
Qed.
Lemma args_fit x alt d : well_described d -> typed d ->
  (len (args_str x alt (dargs d)) <= limit x alt)%nat /\ (len (dmnemonic d) <= 4)%nat.
Proof.
  intros (c & bs & Hd & _ & _ & _ & Hm & Ho) [Hb Hp]. rewrite Hd in Hb. apply Forall_app in Hb as [_ Hb].
  pose proof Hb as Hb'. apply Forall_cons_iff in Hb' as [Hc Hbs].
  pose proof (text_fits (dprefix d) c bs Hc Hbs) as F. split.
  - etransitivity; [apply args_len|]. rewrite Ho, map_map. apply Nat.max_lub; [destruct x, alt; cbn; lia|].
    etransitivity; [|apply (fits_join _ x alt F)]. apply joinl_le. intros o Hin. apply opnd_len; [exact Hb|unfold word; apply Z.mod_pos_bound; lia|].
    unfold fitsb in F. apply andb_prop in F as [F _]. apply andb_prop in F as [F _]. rewrite forallb_forall in F. now apply F.
  - rewrite Hm. unfold fitsb in F. apply andb_prop in F as [F _]. apply andb_prop in F as [_ F]. now apply Nat.leb_le in F.
Qed.

(** ** Formatting a whole report *)
Lemma fmt_args_some x f d : well_described d -> typed d -> exists s, fmt_args x f (dargs d) = Some s.
Proof.
  intros H1 H2. destruct (args_fit x (f_alt f) d H1 H2) as [F _]. unfold fmt_args, array_string.
  destruct (f_width f); [|now eexists].
  assert (E : (len (args_str x (f_alt f) (dargs d)) <=? match x with Dec => 14 | _ => 15 end)%nat = true).
  { apply Nat.leb_le. etransitivity; [exact F|]. destruct x, (f_alt f); cbn; lia. }
  rewrite E. now eexists.
Qed.
Lemma fmt_args_len x alt w d : well_described d -> typed d -> (limit x alt <= w)%nat ->
  exists s, fmt_args x (mkFmt alt (Some w) None " "%char None) (dargs d) = Some s /\ len s = w.
Proof.
  intros H1 H2 Hw. destruct (args_fit x alt d H1 H2) as [F _]. unfold fmt_args, array_string. cbn [f_width f_alt].
  assert (E : (len (args_str x alt (dargs d)) <=? match x with Dec => 14 | _ => 15 end)%nat = true).
  { apply Nat.leb_le. etransitivity; [exact F|]. destruct x, alt; cbn; lia. }
  rewrite E. cbn [option_map]. eexists. split; [reflexivity|].
  unfold pad. cbn [f_prec f_width f_align f_fill]. rewrite !len_app, !len_repc. lia.
Qed.
Lemma fmt_debug_cols x f d : well_described d -> typed d ->
  exists a s, fmt_debug x f d = Some (a ++ " " ++ padr 4 (dmnemonic d) ++ " " ++ s ++ " " ++
      bytes_str (match x with Dec => dec | LHex => hex false 2 | UHex => hex true 2 end) (dcode d))%string /\
    len a = (if f_alt f then match x with Dec => 5 | _ => 6 end else 5)%nat /\ len (padr 4 (dmnemonic d)) = 4%nat /\
    len s = (if f_alt f then match x with Dec => 14 | _ => 15 end else 14)%nat.
Proof.
  intros H1 H2. pose proof H2 as [_ Hp]. pose proof (len_padr 4 _ (proj2 (args_fit x false d H1 H2))) as Hm.
  unfold fmt_debug.
  destruct x.
  - destruct (fmt_args_len Dec false 14 d H1 H2 ltac:(cbn; lia)) as (s & E & Hs). rewrite E. cbn [option_map].
    eexists _, s. split; [reflexivity|]. split; [rewrite (len_padl 5) by (now apply len_dec16); now destruct (f_alt f)|].
    split; [exact Hm|now destruct (f_alt f)].
  - destruct (f_alt f).
    + destruct (fmt_args_len LHex true 15 d H1 H2 ltac:(cbn; lia)) as (s & E & Hs). rewrite E. cbn [option_map].
      eexists _, s. split; [reflexivity|]. split; [now apply len_hexa16|]. split; [exact Hm|exact Hs].
    + destruct (fmt_args_len LHex false 14 d H1 H2 ltac:(cbn; lia)) as (s & E & Hs). rewrite E. cbn [option_map].
      eexists _, s. split; [reflexivity|]. split; [rewrite len_app, len_hex16 by assumption; reflexivity|]. split; [exact Hm|exact Hs].
  - destruct (f_alt f).
    + destruct (fmt_args_len UHex true 15 d H1 H2 ltac:(cbn; lia)) as (s & E & Hs). rewrite E. cbn [option_map].
      eexists _, s. split; [reflexivity|]. split; [now apply len_hexa16|]. split; [exact Hm|exact Hs].
    + destruct (fmt_args_len UHex false 14 d H1 H2 ltac:(cbn; lia)) as (s & E & Hs). rewrite E. cbn [option_map].
      eexists _, s. split; [reflexivity|]. split; [rewrite len_app, len_hex16 by assumption; reflexivity|]. split; [exact Hm|exact Hs].
Qed.

Lemma columns_aligned : forall x f d, well_described d -> typed d ->
  let '(c1, c2, c3) := columns x (f_alt f) in
  exists s1 s2 s3 s4, fmt_debug x f d = Some (s1 ++ s2 ++ s3 ++ s4)%string /\
    String.length s1 = c1 /\ (String.length s1 + String.length s2)%nat = c2 /\
    (String.length s1 + String.length s2 + String.length s3)%nat = c3 /\
    (exists n, s2 = dmnemonic d ++ repc n " ")%string /\ exists s, s4 = ("[" ++ s)%string.
Proof.
  intros x f d H1 H2. destruct (fmt_debug_cols x f d H1 H2) as (a & s & E & La & Lm & Ls).
  assert (A : forall s t u, ((s ++ t) ++ u)%string = (s ++ t ++ u)%string).
  { intros s0 t u. induction s0 as [|ch s0 IH]; cbn; [reflexivity|now rewrite IH]. }
  assert (P : exists n, (padr 4 (dmnemonic d) ++ " ")%string = (dmnemonic d ++ repc n " ")%string).
  { assert (R : forall n, (repc n " " ++ " ")%string = repc (S n) " "%char).
    { induction n as [|n IH]; [reflexivity|]. cbn [repc append] in *. now rewrite IH. }
    exists (S (4 - String.length (dmnemonic d)))%nat. rewrite <- R, <- A. f_equal.
    unfold padr, pad. cbn [f_prec f_width f_align f_fill]. now rewrite Nat.sub_0_r. }
  assert (G : exists s1 s2 s3 s4, fmt_debug x f d = Some (s1 ++ s2 ++ s3 ++ s4)%string /\
    String.length s1 = (String.length a + 1)%nat /\ String.length s2 = 5%nat /\ String.length s3 = (String.length s + 1)%nat /\
    (exists n, s2 = dmnemonic d ++ repc n " ")%string /\ exists s, s4 = ("[" ++ s)%string).
  { eexists (a ++ " ")%string, (padr 4 (dmnemonic d) ++ " ")%string, (s ++ " ")%string, _.
    split; [rewrite E, !A; reflexivity|]. rewrite !len_app, Lm. split; [reflexivity|]. split; [reflexivity|].
    split; [reflexivity|]. split; [exact P|]. eexists. unfold bytes_str. reflexivity. }
  destruct G as (s1 & s2 & s3 & s4 & G1 & G2 & G3 & G4 & G5 & G6).
  unfold columns. destruct x, (f_alt f); exists s1, s2, s3, s4; (split; [exact G1|]); repeat (split; [lia|]); split; assumption.
Qed.


(** ** Produced reports are typed *)
Section Produced.
Context {Q TS WB RB : Type}.
Variable FL : Flavour Q.
Implicit Types c : cpu Q.
Notation ev := (ev TS WB RB).
Notation wpl := (Trace.wpl (TS:=TS) (WB:=WB) (RB:=RB)) (only parsing).
Lemma reported_typed first p (l : list ev) d : reported first p l d -> Forall byte first -> bytes_ok l -> typed d.
Proof.
  intros (l1 & l2 & rd & H1 & _ & _ & H4 & _ & H6 & H7) Hf Hb. split.
  - rewrite H6. apply Forall_app. split; [exact Hf|]. rewrite <- H4. subst l. apply Forall_app in Hb as [Hb _].
    clear -Hb. induction Hb as [|e l He HB IH]; [constructor|].
    cbn [flat_map]. rewrite map_app. apply Forall_app. split; [|exact IH]. apply Forall_map. exact He.
  - rewrite H7. unfold word. apply Z.mod_pos_bound. lia.
Qed.
Lemma pbyte_bytes px : Forall byte (pbyte px).
Proof. destruct px as [[]|]; repeat constructor; unfold byte; lia. Qed.
Lemma injected_byte c v : byte v -> byte (fst (injected c v)).
Proof. intros Hv. unfold injected. destruct (im c); cbn [fst]; [exact Hv| |]; unfold byte; lia. Qed.
Definition described (l : list ev) : Prop := forall d, In (EDebug d) l -> well_described d /\ typed d.
Lemma int_rep_typed c (l : list ev) : int_rep c l -> bytes_ok l -> described l.
Proof.
  intros (t & v & w & l0 & l' & Hv & E & F & H) Hb d Hin. subst l.
  apply Forall_cons_iff in Hb as [_ Hb]. apply Forall_cons_iff in Hb as [_ Hb]. apply Forall_app in Hb as [_ Hb].
  destruct Hin as [|[|Hin]]; [discriminate|discriminate|]. apply in_app_or in Hin as [Hin|Hin]; [now apply silent_no in Hin|].
  destruct (is_prefix _); [now apply silent_no in Hin|]. destruct H as (d' & H1 & _ & H3).
  rewrite (reported_in _ _ _ _ _ H1 Hin). split; [exact H3|].
  refine (reported_typed _ _ _ _ H1 _ Hb). apply Forall_cons; [now apply injected_byte|constructor].
Qed.
Lemma execute_next_described c : wf c -> wpl (execute_next FL true c) (fun _ l => described l).
Proof.
  intros Hw. refine (wpl_mono _ _ _ _ (wpl_bytes _ _ (execute_next_int_rep FL c Hw))). intros _ l [H Hb].
  destruct H as [(t & l' & -> & H)|H].
  - apply Forall_cons_iff in Hb as [_ Hb]. apply Forall_cons_iff in Hb as [_ Hb]. pose proof (int_rep_typed _ _ H Hb) as G.
    intros d [E|[E|Hin]]; [discriminate|discriminate|now apply G].
  - intros d Hin. destruct (halt c); [now apply silent_no in Hin|]. destruct H as (code & _ & _ & H).
    destruct (is_prefix code); [now apply silent_no in Hin|]. destruct H as (d' & H1 & _ & H3).
    rewrite (reported_in _ _ _ _ _ H1 Hin). split; [exact H3|]. exact (reported_typed _ _ _ _ H1 (pbyte_bytes _) Hb).
Qed.
Lemma execute_instruction_described code c : byte code -> wf c -> wpl (execute_instruction FL true code c) (fun _ l => described l).
Proof.
  intros Hc Hw. refine (wpl_mono _ _ _ _ (wpl_bytes _ _ (execute_instruction_rep FL code c Hc Hw))). intros _ l [H Hb] d Hin.
  unfold step_rep in H. destruct (is_prefix code); [now apply silent_no in Hin|]. destruct H as (d' & H1 & _ & H3).
  rewrite (reported_in _ _ _ _ _ H1 Hin). split; [exact H3|]. refine (reported_typed _ _ _ _ H1 _ Hb).
  apply Forall_app. split; [apply pbyte_bytes|apply Forall_cons; [exact Hc|constructor]].
Qed.
Lemma irq_described c : wf c -> wpl (irq FL true c) (fun _ l => described l).
Proof.
  intros Hw. refine (wpl_mono _ _ _ _ (wpl_bytes _ _ (irq_rep FL c Hw))). intros _ l [H Hb].
  destruct (is_irq_allowed c); [now apply (int_rep_typed c)|]. subst l. intros d [].
Qed.
Lemma described_formattable d : well_described d /\ typed d -> formattable d.
Proof.
  intros [H1 H2] x f. split; [|now apply fmt_args_some].
  destruct (fmt_debug_cols x f d H1 H2) as (a & s & E & _). eexists. exact E.
Qed.
Lemma logs_formattable {X} (p : prog TS WB RB X) : wpl p (fun _ l => described l) ->
  logs p (fun _ l => forall d, In (EDebug d) l -> formattable d).
Proof.
  intros H. refine (wpl_logs _ _ (wpl_mono _ _ _ _ H)). intros _ l Hd d Hin. exact (described_formattable d (Hd d Hin)).
Qed.
End Produced.
