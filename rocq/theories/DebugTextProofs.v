From Coq Require Import ZArith Bool String Ascii List Lia.
From Verif Require Import Base Parse Cpu Flavours Any Range Format DebugText SpecDebugText SerdeProofs.
Import ListNotations.
Open Scope string_scope.
Open Scope list_scope.
Open Scope Z_scope.
Ltac Zify.zify_post_hook ::= Z.div_mod_to_equations.

(** ** Words *)
Lemma app_nil_s s : (s ++ "")%string = s.
Proof. induction s; cbn; congruence. Qed.
Lemma app_assoc_s a b c : ((a ++ b) ++ c)%string = (a ++ b ++ c)%string.
Proof. induction a; cbn; congruence. Qed.
Lemma words_sep : forall v cur c rest, sep c = true -> words cur (v ++ String c rest) = words cur v ++ words "" rest.
Proof.
  induction v as [|d v IH]; intros cur c rest H; cbn [append words].
  - rewrite H. destruct cur; reflexivity.
  - destruct (sep d); rewrite IH by exact H; [destruct cur|]; reflexivity.
Qed.
Fixpoint cleanb (s : string) : bool := match s with "" => true | String c s => negb (sep c) && cleanb s end.
Lemma words_clean : forall v cur, cleanb v = true -> words cur v = emit (cur ++ v)%string [].
Proof.
  induction v as [|d v IH]; intros cur H; cbn [cleanb words] in *.
  - now rewrite app_nil_s.
  - apply andb_prop in H as [H1 H2]. apply negb_true_iff in H1. rewrite H1, IH by exact H2. now rewrite app_assoc_s.
Qed.
Lemma nl_sep c : Ascii.eqb c nlc = true -> sep c = true.
Proof. intros H. apply Ascii.eqb_eq in H as ->. reflexivity. Qed.
Lemma words_indent : forall s cur start rest, (start = true -> cur = "") ->
  words cur (indent start s ++ rest) = words cur (s ++ rest).
Proof.
  assert (G : forall s, (forall cur rest, words cur (indent false s ++ rest) = words cur (s ++ rest)) /\
                        (forall rest, words "" (indent true s ++ rest) = words "" (s ++ rest))).
  { induction s as [|c s [IH1 IH2]]; [auto|].
    assert (E : forall cur rest, words cur (String c (indent (Ascii.eqb c nlc) s) ++ rest) = words cur (String c s ++ rest)).
    { intros cur rest. cbn [append words]. destruct (Ascii.eqb c nlc) eqn:En.
      - rewrite (nl_sep _ En). now rewrite IH2.
      - destruct (sep c); now rewrite IH1. }
    split; intros; cbn [indent append].
    - apply E.
    - exact (E "" rest). }
  intros s cur start rest H. destruct start; [rewrite H by reflexivity; apply G|apply G].
Qed.
Definition nonempty (s : string) : Prop := match s with "" => False | _ => True end.
Definition named (f : string * string) : Prop := cleanb (fst f) = true /\ nonempty (fst f).
Definition field_words (f : string * string) : list string := fst f :: words "" (snd f).
Lemma words_name n : cleanb n = true -> nonempty n -> words "" n = [n].
Proof. intros H1 H2. rewrite words_clean by exact H1. destruct n; [easy|reflexivity]. Qed.
Lemma text_words f c rest : named f -> sep c = true ->
  words "" ((fst f ++ ": " ++ snd f) ++ String c rest) = field_words f ++ words "" rest.
Proof.
  intros [H1 H2] Hc. rewrite words_sep by exact Hc. f_equal.
  change (": " ++ snd f)%string with (String ":" (String " " (snd f))).
  rewrite words_sep by reflexivity. rewrite words_name by assumption. reflexivity.
Qed.
Lemma words_space s : words "" (String " " s) = words "" s.  Proof. reflexivity. Qed.
Lemma words_newline s : words "" (String nlc s) = words "" s.  Proof. reflexivity. Qed.
Lemma alt_fields : forall fs rest, Forall named fs ->
  words "" (String.concat "" (map (fun f => indent true ((fst f ++ ": " ++ snd f) ++ "," ++ nl)) fs) ++ rest) =
  flat_map field_words fs ++ words "" rest.
Proof.
  assert (C : forall (a b : string) l, String.concat "" (a :: b :: l) = (a ++ String.concat "" (b :: l))%string) by reflexivity.
  induction fs as [|f fs IH]; intros rest Hf; [reflexivity|]. inversion Hf as [|? ? H1 H2]; subst.
  assert (E : forall t, words "" (indent true ((fst f ++ ": " ++ snd f) ++ "," ++ nl) ++ t) = field_words f ++ words "" t).
  { intros t. rewrite words_indent by auto. rewrite app_assoc_s. exact (text_words f "," (nl ++ t) H1 eq_refl). }
  cbn [flat_map]. rewrite <- app_assoc. rewrite <- IH by exact H2. rewrite <- E.
  destruct fs as [|g fs]; [reflexivity|]. cbn [map]. rewrite C, app_assoc_s. reflexivity.
Qed.
Lemma plain_fields : forall fs rest, Forall named fs ->
  words "" (String.concat ", " (map (fun f => fst f ++ ": " ++ snd f)%string fs) ++ String " " rest) =
  flat_map field_words fs ++ words "" rest.
Proof.
  assert (C : forall (a b : string) l, String.concat ", " (a :: b :: l) = (a ++ ", " ++ String.concat ", " (b :: l))%string) by reflexivity.
  induction fs as [|f fs IH]; intros rest Hf; [reflexivity|]. inversion Hf as [|? ? H1 H2]; subst.
  cbn [flat_map]. rewrite <- app_assoc. rewrite <- IH by exact H2. destruct fs as [|g fs].
  - cbn [map String.concat append]. rewrite text_words by (auto || reflexivity). reflexivity.
  - cbn [map]. rewrite C, app_assoc_s. set (X := String.concat _ _).
    exact (text_words f "," (String " " (X ++ String " " rest)) H1 eq_refl).
Qed.
Lemma struct_words alt name fs : cleanb name = true -> nonempty name -> Forall named fs -> fs <> [] ->
  words "" (debug_struct alt name fs) = name :: flat_map field_words fs.
Proof.
  intros H1 H2 Hf Hn. unfold debug_struct. destruct fs as [|f fs]; [easy|]. set (l := f :: fs) in *. clearbody l.
  destruct alt.
  - change (" {" ++ nl ++ ?s)%string with (String " " (String "{" (String nlc s))).
    rewrite words_sep by reflexivity. rewrite words_name by assumption. cbn [app]. f_equal.
    transitivity (words "" (String.concat "" (map (fun f => indent true ((fst f ++ ": " ++ snd f) ++ "," ++ nl)) l) ++ "}")); [reflexivity|].
    rewrite alt_fields by exact Hf. cbn [words sep existsb Ascii.eqb]. apply app_nil_r.
  - change (" { " ++ ?s)%string with (String " " (String "{" (String " " s))).
    rewrite words_sep by reflexivity. rewrite words_name by assumption. cbn [app]. f_equal.
    transitivity (words "" (String.concat ", " (map (fun f => fst f ++ ": " ++ snd f)%string l) ++ " }")); [reflexivity|].
    change " }" with (String " " "}"). rewrite plain_fields by exact Hf. apply app_nil_r.
Qed.
Lemma tuple_words alt name v : cleanb name = true -> nonempty name -> words "" (debug_tuple1 alt name v) = name :: words "" v.
Proof.
  intros H1 H2. unfold debug_tuple1. destruct alt.
  - change ("(" ++ nl ++ ?s)%string with (String "(" (String nlc s)).
    rewrite words_sep by reflexivity. rewrite words_name by assumption. cbn [app]. f_equal.
    rewrite words_newline, words_indent by auto. rewrite app_assoc_s.
    exact (eq_trans (words_sep v "" "," (nl ++ ")") eq_refl) (app_nil_r _)).
  - change ("(" ++ ?s)%string with (String "(" s).
    rewrite words_sep by reflexivity. rewrite words_name by assumption. cbn [app]. f_equal.
    exact (eq_trans (words_sep v "" ")" "" eq_refl) (app_nil_r _)).
Qed.

(** ** Numbers *)
Definition isdig (c : ascii) : bool :=
  let n := Z.of_nat (nat_of_ascii c) in ((48 <=? n) && (n <? 58)) || ((65 <=? n) && (n <? 71)) || ((97 <=? n) && (n <? 103)).
Fixpoint digb (s : string) : bool := match s with "" => true | String c s => isdig c && digb s end.
Lemma digit_spec up n : 0 <= n < 16 -> isdig (digit up n) = true /\ digit_value (digit up n) = n.
Proof.
  intros H. assert (D : n = 0 \/ n = 1 \/ n = 2 \/ n = 3 \/ n = 4 \/ n = 5 \/ n = 6 \/ n = 7 \/ n = 8 \/ n = 9 \/ n = 10 \/
    n = 11 \/ n = 12 \/ n = 13 \/ n = 14 \/ n = 15) by lia.
  repeat (destruct D as [->|D]; [destruct up; split; reflexivity|]). subst n. destruct up; split; reflexivity.
Qed.
Lemma number_app b : forall s acc t, number b acc (s ++ t) = number b (number b acc s) t.
Proof. induction s; intros; cbn; auto. Qed.
Lemma digits_spec b up : 1 < b <= 16 -> forall fuel n acc, 0 <= n < b ^ Z.of_nat fuel -> (0 < fuel)%nat ->
  exists p, digits fuel b up n acc = (p ++ acc)%string /\ number b 0 p = n /\ digb p = true /\ nonempty p.
Proof.
  intros Hb. induction fuel as [|k IH]; intros n acc Hn Hk; [lia|]. cbn [digits].
  assert (Hm : 0 <= n mod b < b) by (apply Z.mod_pos_bound; lia).
  destruct (digit_spec up (n mod b)) as [D1 D2]; [lia|].
  destruct (Z.eqb_spec (n / b) 0) as [E|E].
  - exists (String (digit up (n mod b)) ""). cbn [append number digb nonempty]. rewrite D1, D2.
    split; [reflexivity|]. split; [|auto]. rewrite (Z.div_mod n b) at 2 by lia. rewrite E. lia.
  - destruct k as [|k].
    { exfalso. change (b ^ Z.of_nat 1) with (b ^ 1) in Hn. rewrite Z.pow_1_r in Hn. apply E. apply Z.div_small; lia. }
    destruct (IH (n / b) (String (digit up (n mod b)) acc)) as (p & E1 & E2 & E3 & E4); [|lia|].
    { rewrite Nat2Z.inj_succ, Z.pow_succ_r in Hn by lia. split; [apply Z.div_pos; lia|apply Z.div_lt_upper_bound; lia]. }
    exists (p ++ String (digit up (n mod b)) "")%string. rewrite E1. split; [rewrite app_assoc_s; reflexivity|].
    rewrite number_app, E2. cbn [number]. rewrite D2. split; [rewrite (Z.div_mod n b) at 3 by lia; lia|]. split.
    + clear - E3 D1. revert E3. induction p as [|c p IHp]; cbn [append digb]; intros; [now rewrite D1|].
      apply andb_prop in E3 as [-> E3]. now rewrite IHp.
    + destruct p; [easy|exact I].
Qed.
Lemma num_spec b up n : b = 10 \/ b = 16 -> word n -> number b 0 (num b up n) = n /\ digb (num b up n) = true /\ nonempty (num b up n).
Proof.
  intros Hb Hn. unfold num. unfold word in Hn.
  assert (P : 65536 <= b ^ Z.of_nat 32) by (destruct Hb as [->| ->]; vm_compute; discriminate).
  destruct (digits_spec b up ltac:(lia) 32 n "") as (p & -> & H); [lia|lia|]. now rewrite app_nil_s.
Qed.
Lemma isdig_clean c : isdig c = true -> sep c = false.
Proof. destruct c as [[] [] [] [] [] [] [] []]; vm_compute; congruence. Qed.
Lemma dig_clean s : digb s = true -> cleanb s = true.
Proof.
  induction s as [|c s IH]; cbn [digb cleanb]; [auto|]. intros H. apply andb_prop in H as [H1 H2].
  now rewrite (isdig_clean _ H1), IH.
Qed.
Lemma strip_dig s : digb s = true -> match s with String "0" (String "x" t) => t | _ => s end = s.
Proof.
  intros H. destruct s as [|[[] [] [] [] [] [] [] []] s]; try reflexivity.
  destruct s as [|[[] [] [] [] [] [] [] []] s]; try reflexivity. cbn in H. discriminate.
Qed.
Lemma int_words x alt n : word n -> words "" (dbg_int x alt n) = [dbg_int x alt n].
Proof.
  intros H. assert (E : cleanb (dbg_int x alt n) = true /\ nonempty (dbg_int x alt n)).
  { unfold dbg_int, dec.
    destruct (num_spec 10 false n) as (_ & A1 & A2); [auto|exact H|]. apply dig_clean in A1.
    destruct (num_spec 16 (upper x) n) as (_ & B1 & B2); [auto|exact H|]. apply dig_clean in B1.
    destruct x; [auto| |]; (destruct alt; [split; [cbn [append cleanb]; exact B1|exact I]|auto]). }
  apply words_name; apply E.
Qed.
Lemma int_read x alt n : word n -> read_int x (dbg_int x alt n) = n.
Proof.
  intros H. unfold dbg_int, dec, read_int.
  destruct (num_spec 10 false n) as (A & _); [auto|exact H|].
  destruct (num_spec 16 (upper x) n) as (B & D & _); [auto|exact H|].
  destruct x; [exact A| |]; destruct alt; try exact B;
    change ("" ++ ?s)%string with s; rewrite strip_dig by exact D; exact B.
Qed.

(** ** CPUs *)
Definition px_words (p : option Prefix) : list string :=
  match p with None => ["None"] | Some Xdd => ["Some"; "Xdd"] | Some Yfd => ["Some"; "Yfd"] end.
Lemma px_word alt p : words "" (dbg_prefix alt p) = px_words p.
Proof. destruct p as [[]|], alt; reflexivity. Qed.
Lemma debug_words {Q} x alt (c : cpu Q) : wf c ->
  let int := dbg_int x alt in
  words "" (debug_text x alt c) =
  "Z80" :: "pc" :: int (pc c) :: "sp" :: int (sp c) :: "af" :: int (af c) :: "bc" :: int (bc c) :: "de" :: int (de c) ::
  "hl" :: int (hl c) :: "af'" :: int (af_alt c) :: "bc'" :: int (bc_alt c) :: "de'" :: int (de_alt c) :: "hl'" :: int (hl_alt c) ::
  "ix" :: int (ix c) :: "iy" :: int (iy c) :: "ir" :: int (ir c) :: "r" :: int (r c) :: "im" :: dbg_im (im c) ::
  "iff1" :: dbg_bool (iff1 c) :: "iff2" :: dbg_bool (iff2 c) :: "halt" :: dbg_bool (halt c) :: "ei" :: dbg_bool (last_ei c) ::
  "mp" :: int (memptr c) :: "prefix" :: px_words (prefix c).
Proof.
  intros W int. unfold debug_text. fold int.
  rewrite struct_words; [|reflexivity|exact I|repeat (constructor; [split; [reflexivity|exact I]|]); constructor|discriminate].
  cbn [flat_map field_words fst snd app]. subst int. pose proof (byte_word _ (wf_r _ W)) as Wr. destruct W.
  assert (Bw : forall b, words "" (dbg_bool b) = [dbg_bool b]) by (intros []; reflexivity).
  assert (Iw : forall m, words "" (dbg_im m) = [dbg_im m]) by (intros []; reflexivity).
  rewrite !int_words, !Bw, Iw, px_word by assumption. cbn [app]. rewrite app_nil_r. reflexivity.
Qed.
Lemma fields_read {Q} x alt (c : cpu Q) : wf c -> read_fields x (pairs (tl (words "" (debug_text x alt c)))) = Some (forget c).
Proof.
  intros W. rewrite debug_words by exact W. cbn [tl].
  pose proof (byte_word _ (wf_r _ W)) as Wr. destruct W.
  assert (Br : forall b, read_bool (dbg_bool b) = Some b) by (intros []; reflexivity).
  assert (Ir : forall m, read_im (dbg_im m) = Some m) by (intros []; reflexivity).
  set (bm := dbg_im (im c)) in *. assert (Em : read_im bm = Some (im c)) by apply Ir.
  assert (P : exists v, pairs ("prefix" :: px_words (prefix c)) = [("prefix", v)] /\ read_prefix v = Some (prefix c)).
  { destruct (prefix c) as [[]|]; eexists; (split; [reflexivity|reflexivity]). }
  destruct P as (v & P & Rv).
  assert (S2 : forall n a m b l, pairs (n :: a :: m :: b :: l) = (n, a) :: pairs (m :: b :: l)) by reflexivity.
  rewrite !S2.
  assert (S3 : forall n a, pairs (n :: a :: "prefix" :: px_words (prefix c)) = [(n, a); ("prefix", v)]).
  { intros n a. rewrite <- P. destruct (prefix c) as [[]|]; reflexivity. }
  rewrite S3. unfold read_fields.
  cbn [look String.eqb Ascii.eqb Bool.eqb option_map get].
  rewrite !int_read, !Br by assumption. cbn [get]. rewrite Em, Rv. reflexivity.
Qed.
Lemma debug_read {Q} x alt (c : cpu Q) : wf c -> read_cpu x (debug_text x alt c) = Some (forget c).
Proof.
  intros W. pose proof (fields_read x alt c W) as E. unfold read_cpu. rewrite debug_words in * by exact W. exact E.
Qed.
Lemma debug_forget {Q} x alt (c : cpu Q) : debug_text x alt c = debug_text x alt (forget c).
Proof. reflexivity. Qed.
Lemma debug_same {Q Q'} x alt (c : cpu Q) (c' : cpu Q') : wf c -> wf c' ->
  (debug_text x alt c = debug_text x alt c' <-> forget c = forget c').
Proof.
  intros W W'. split; intros E.
  - apply (f_equal (read_cpu x)) in E. rewrite !debug_read in E by assumption. congruence.
  - rewrite (debug_forget x alt c), (debug_forget x alt c'). congruence.
Qed.
Lemma any_read x alt a : any_wf a -> read_any x (any_debug_text x alt a) = Some (any_kind a, any_forget a).
Proof.
  assert (G : forall Q (c : cpu Q) k, wf c -> cleanb k = true -> nonempty k ->
    read_any x (debug_tuple1 alt k (debug_text x alt c)) = Some (k, forget c)).
  { intros Q c k W H1 H2. unfold read_any. rewrite tuple_words by assumption.
    pose proof (fields_read x alt c W) as E. rewrite debug_words in * by exact W. cbn [String.eqb Ascii.eqb Bool.eqb].
    cbn [tl] in E. rewrite E. reflexivity. }
  destruct a; intros W; (apply G; [exact W|reflexivity|exact I]).
Qed.

(** ** Lines *)
Lemma newlines_app a b : newlines (a ++ b) = (newlines a + newlines b)%nat.
Proof. induction a as [|c a IH]; cbn; [reflexivity|]. rewrite IH. lia. Qed.
Lemma newlines_indent : forall s st, newlines (indent st s) = newlines s.
Proof.
  induction s as [|c s IH]; intros st; [reflexivity|]. destruct st; cbn [indent append newlines Ascii.eqb Bool.eqb]; rewrite IH; reflexivity.
Qed.
Lemma newlines_clean s : cleanb s = true -> newlines s = 0%nat.
Proof.
  induction s as [|c s IH]; cbn [cleanb newlines]; [reflexivity|]. intros H. apply andb_prop in H as [H1 H2].
  destruct (Ascii.eqb c "010") eqn:E; [|now apply IH]. apply (nl_sep c) in E. rewrite E in H1. discriminate.
Qed.
Lemma int_newlines x alt n : word n -> newlines (dbg_int x alt n) = 0%nat.
Proof.
  intros H. apply newlines_clean. unfold dbg_int, dec.
  destruct (num_spec 10 false n) as (_ & A1 & A2); [auto|exact H|]. apply dig_clean in A1.
  destruct (num_spec 16 (upper x) n) as (_ & B1 & B2); [auto|exact H|]. apply dig_clean in B1.
  destruct x; [auto| |]; (destruct alt; [cbn [append cleanb]; exact B1|auto]).
Qed.
Lemma struct_newlines alt name fs : fs <> [] -> newlines name = 0%nat ->
  (forall f, In f fs -> newlines (fst f) = 0%nat) ->
  newlines (debug_struct alt name fs) =
  ((if alt then 1 + List.length fs else 0) + list_sum (map (fun f => newlines (snd f)) fs))%nat.
Proof.
  intros Hn Hname Hf. unfold debug_struct. rewrite newlines_app, Hname. destruct fs as [|f0 fs0]; [easy|].
  set (l := f0 :: fs0) in *. clearbody l. clear Hn f0 fs0.
  destruct alt; rewrite !newlines_app; [change (newlines " {") with 0%nat; change (newlines nl) with 1%nat; change (newlines "}") with 0%nat
    | change (newlines " { ") with 0%nat; change (newlines " }") with 0%nat]; cbn [Nat.add].
  - match goal with |- S (?a + 0) = S (?b) => enough (a = b) by lia end.
    induction l as [|f l IH]; [reflexivity|].
    assert (E : newlines (indent true ((fst f ++ ": " ++ snd f) ++ "," ++ nl)) = S (newlines (snd f))).
    { rewrite newlines_indent, !newlines_app, (Hf f (or_introl eq_refl)). cbn. lia. }
    assert (I' : forall g, In g l -> newlines (fst g) = 0%nat) by (intros g Hg; apply Hf; now right).
    specialize (IH I'). cbn [map List.length list_sum fold_right]. destruct l as [|g l].
    + cbn [map String.concat]. rewrite E. cbn. lia.
    + cbn [map] in *. change (String.concat "" (?a :: ?b :: ?c)) with (a ++ "" ++ String.concat "" (b :: c))%string.
      rewrite !newlines_app, IH, E. cbn [newlines List.length]. unfold list_sum. cbn [map fold_right]. lia.
  - rewrite Nat.add_0_r. induction l as [|f l IH]; [reflexivity|].
    assert (E : newlines (fst f ++ ": " ++ snd f) = newlines (snd f)).
    { rewrite !newlines_app, (Hf f (or_introl eq_refl)). reflexivity. }
    assert (I' : forall g, In g l -> newlines (fst g) = 0%nat) by (intros g Hg; apply Hf; now right).
    specialize (IH I'). cbn [map list_sum fold_right]. destruct l as [|g l].
    + cbn [map String.concat]. rewrite E. cbn. lia.
    + cbn [map] in *. change (String.concat ", " (?a :: ?b :: ?c)) with (a ++ ", " ++ String.concat ", " (b :: c))%string.
      rewrite !newlines_app, IH. rewrite <- !newlines_app, E. unfold list_sum. cbn [newlines map fold_right Ascii.eqb Bool.eqb]. lia.
Qed.
Lemma debug_lines {Q} x alt (c : cpu Q) : wf c ->
  newlines (debug_text x alt c) = if alt then match prefix c with None => 22%nat | Some _ => 24%nat end else 0%nat.
Proof.
  intros W. unfold debug_text. pose proof (byte_word _ (wf_r _ W)) as Wr. destruct W.
  assert (Bn : forall b, newlines (dbg_bool b) = 0%nat) by (intros []; reflexivity).
  assert (In_ : forall m, newlines (dbg_im m) = 0%nat) by (intros []; reflexivity).
  rewrite struct_newlines; [|discriminate|reflexivity|].
  - cbn [map snd List.length]. unfold list_sum. cbn [fold_right]. rewrite !int_newlines, !Bn, In_ by assumption.
    destruct alt, (prefix c) as [[]|]; reflexivity.
  - intros f Hf. cbn [In] in Hf. repeat (destruct Hf as [<-|Hf]; [reflexivity|]). destruct Hf.
Qed.

(** ** Layout *)
Lemma layout_app : forall a b d st, layout d st (a ++ b) = match layout d st a with Some (d, st) => layout d st b | None => None end.
Proof.
  induction a as [|c a IH]; intros b d st; [reflexivity|]. cbn [append layout]. destruct (Ascii.eqb c "010"); [destruct st; auto|].
  destruct (Ascii.eqb c " "); [auto|]. destruct (Ascii.eqb c "}" || Ascii.eqb c ")"); [destruct d; [reflexivity|]|];
    destruct (match st with Some k => _ | None => _ end); auto.
Qed.
Lemma layout_clean : forall s d, cleanb s = true -> layout d None s = Some (d, None).
Proof.
  induction s as [|c s IH]; intros d H; [reflexivity|]. cbn [cleanb] in H. apply andb_prop in H as [H1 H2]. apply negb_true_iff in H1. unfold sep in H1. cbn [existsb] in H1.
  repeat (apply orb_false_elim in H1; destruct H1 as [? H1]). cbn [layout].
  repeat match goal with E : Ascii.eqb c _ = false |- _ => rewrite E; clear E end. cbn [orb]. now apply IH.
Qed.
Definition shifted (i : bool) (st : option nat) : option nat := match st with Some n => Some (if i then n else (n + 4)%nat) | None => None end.
Lemma layout_indent : forall s d st i d' st', (i = true -> st = Some 0%nat) -> (i = false -> st <> Some 0%nat) -> layout d st s = Some (d', st') ->
  exists i', (i' = true -> st' = Some 0%nat) /\ (i' = false -> st' <> Some 0%nat) /\ layout (S d) (shifted i st) (indent i s) = Some (S d', shifted i' st').
Proof.
  induction s as [|c s IH]; intros d st i d' st' H1 H2 H; [injection H as <- <-; exists i; auto|]. cbn [indent].
  assert (P : layout (S d) (shifted i st) ((if i then "    " else "") ++ String c (indent (Ascii.eqb c nlc) s)) =
    layout (S d) (match st with Some n => Some (n + 4)%nat | None => None end) (String c (indent (Ascii.eqb c nlc) s))).
  { destruct i; [rewrite (H1 eq_refl); reflexivity|destruct st; reflexivity]. }
  rewrite P. clear P. cbn [layout] in *. unfold nlc. destruct (Ascii.eqb c "010") eqn:En.
  - destruct st; [discriminate H|]. exact (IH d (Some 0%nat) true d' st' ltac:(auto) ltac:(discriminate) H).
  - destruct (Ascii.eqb c " ") eqn:Es.
    + specialize (IH d (option_map S st) false d' st' ltac:(discriminate) ltac:(destruct st; discriminate) H). destruct st; exact IH.
    + assert (F : forall n, match (match st with Some n => Some (n + 4)%nat | None => None end) with Some k => Nat.eqb k (4 * S n) | None => true end =
        match st with Some k => Nat.eqb k (4 * n) | None => true end).
      { intros n. destruct st as [k|]; [|reflexivity]. destruct (Nat.eqb_spec (k + 4) (4 * S n)), (Nat.eqb_spec k (4 * n)); reflexivity || lia. }
      destruct (Ascii.eqb c "}" || Ascii.eqb c ")") eqn:Ec.
      * destruct d as [|d]; [discriminate H|]. rewrite F. destruct (match st with Some k => _ | None => _ end); [|discriminate H].
        exact (IH d None false d' st' ltac:(discriminate) ltac:(discriminate) H).
      * rewrite F. destruct (match st with Some k => _ | None => _ end); [|discriminate H].
        destruct (Ascii.eqb c "{" || Ascii.eqb c "("); exact (IH _ None false d' st' ltac:(discriminate) ltac:(discriminate) H).
Qed.
Lemma line_indent s : layout 0 (Some 0%nat) s = Some (0%nat, Some 0%nat) -> layout 1 (Some 0%nat) (indent true s) = Some (1%nat, Some 0%nat).
Proof.
  intro H. destruct (layout_indent s 0 (Some 0%nat) true 0 (Some 0%nat) ltac:(auto) ltac:(discriminate) H) as (i' & H1 & H2 & E).
  destruct i'; [exact E|now destruct (H2 eq_refl)].
Qed.
(** A name and a value that is a word, or a bracket after a word. *)
Lemma name_layout n : cleanb n = true -> nonempty n -> layout 0 (Some 0%nat) n = Some (0%nat, None).
Proof.
  destruct n as [|c n]; [easy|]. intros H _. cbn [cleanb] in H. apply andb_prop in H as [H1 H2]. apply negb_true_iff in H1. unfold sep in H1. cbn [existsb] in H1.
  repeat (apply orb_false_elim in H1; destruct H1 as [? H1]). cbn [layout].
  repeat match goal with E : Ascii.eqb c _ = false |- _ => rewrite E; clear E end. cbn [orb Nat.eqb Nat.mul]. now apply layout_clean.
Qed.
Definition tidy (v : string) : Prop := layout 0 None v = Some (0%nat, None).
Lemma field_layout f : named f -> tidy (snd f) -> layout 0 (Some 0%nat) ((fst f ++ ": " ++ snd f) ++ "," ++ nl) = Some (0%nat, Some 0%nat).
Proof.
  intros [H1 H2] T. rewrite !layout_app, (name_layout (fst f) H1 H2).
  change (layout 0 None ": ") with (Some (0%nat, @None nat)). cbv iota beta. rewrite T. reflexivity.
Qed.
Lemma concat_cons (a : string) l : String.concat "" (a :: l) = (a ++ String.concat "" l)%string.
Proof. destruct l; [cbn; now rewrite app_nil_s|reflexivity]. Qed.
Lemma struct_layout name fs : cleanb name = true -> nonempty name -> Forall named fs -> Forall (fun f => tidy (snd f)) fs -> neat (debug_struct true name fs).
Proof.
  intros H1 H2 Hf Ht. unfold neat, debug_struct. rewrite layout_app, (name_layout name H1 H2). destruct fs as [|f0 fs0]; [reflexivity|]. set (l := f0 :: fs0) in *. clearbody l.
  change (" {" ++ nl ++ ?s)%string with (String " " (String "{" (String nlc s))). cbn [layout Ascii.eqb Bool.eqb orb option_map nlc].
  rewrite layout_app. enough (E : layout 1 (Some 0%nat) (String.concat "" (map (fun f => indent true ((fst f ++ ": " ++ snd f) ++ "," ++ nl)) l)) = Some (1%nat, Some 0%nat)) by (rewrite E; reflexivity).
  induction l as [|f l IH]; [reflexivity|]. inversion Hf; inversion Ht; subst. cbn [map]. rewrite concat_cons, layout_app, line_indent by (apply field_layout; assumption). auto.
Qed.
Lemma tuple_layout name v : cleanb name = true -> nonempty name -> neat v -> neat (debug_tuple1 true name v).
Proof.
  intros H1 H2 Hv. unfold neat, debug_tuple1. rewrite layout_app, (name_layout name H1 H2).
  change ("(" ++ nl ++ ?s)%string with (String "(" (String nlc s)). cbn [layout Ascii.eqb Bool.eqb orb nlc].
  rewrite layout_app, line_indent; [reflexivity|]. rewrite layout_app. rewrite Hv. reflexivity.
Qed.
Lemma int_tidy x n : word n -> tidy (dbg_int x true n).
Proof.
  intros H. apply layout_clean. unfold dbg_int, dec.
  destruct (num_spec 10 false n) as (_ & A1 & A2); [auto|exact H|]. apply dig_clean in A1.
  destruct (num_spec 16 (upper x) n) as (_ & B1 & B2); [auto|exact H|]. apply dig_clean in B1.
  destruct x; [auto| |]; cbn [append cleanb]; exact B1.
Qed.
Lemma debug_neat {Q} x (c : cpu Q) : wf c -> neat (debug_text x true c).
Proof.
  intros W. unfold debug_text. pose proof (byte_word _ (wf_r _ W)) as Wr. destruct W.
  apply struct_layout; [reflexivity|exact I|repeat (constructor; [split; [reflexivity|exact I]|]); constructor|].
  assert (B : forall b, tidy (dbg_bool b)) by (intros []; reflexivity). assert (M : forall m, tidy (dbg_im m)) by (intros []; reflexivity).
  assert (P : tidy (dbg_prefix true (prefix c))) by (destruct (prefix c) as [[]|]; reflexivity).
  repeat (constructor; [cbn [snd]; first [apply int_tidy; assumption|apply B|apply M|exact P]|]). constructor.
Qed.
Lemma any_neat x a : any_wf a -> neat (any_debug_text x true a).
Proof. destruct a; intros W; (apply tuple_layout; [reflexivity|exact I|apply debug_neat; exact W]). Qed.
