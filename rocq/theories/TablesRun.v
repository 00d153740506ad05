(** Proofs for C49: the crate's table of machine cycles against the model. *)
From Coq Require Import ZArith Bool String List Lia.
From Verif Require Import Base Parse Cpu Range Prog Exec SpecAlu SpecState SpecIsa SpecCycles IsaLink IsaRun Steps Tables SpecTables TablesCycles.
Import ListNotations.
Open Scope list_scope.
Open Scope Z_scope.

Definition main_nf := Eval vm_compute in tested None.
Definition pfx_nf := Eval vm_compute in entries mnemonics_prefix.
Definition cyc_nf := Eval vm_compute in cycle_table.
Definition rows_nf (px : option Prefix) := match px with None => main_nf | Some _ => pfx_nf end.
Lemma tested_nf px : tested px = rows_nf px.
Proof. destruct px; vm_compute; reflexivity. Qed.
Lemma cycles_nf : cycle_table = cyc_nf.
Proof. vm_compute. reflexivity. Qed.
Lemma lookup px : map (fun e => find_key (snd e) cyc_nf) (rows_nf px) = map (fun e => template (is_some px) (fst e)) (rows_nf px).
Proof. destruct px; vm_compute; reflexivity. Qed.
Definition defined (px : option Prefix) (e : list Z * string) : bool := is_some (template (is_some px) (fst e)).
Lemma all_defined px : forallb (defined px) (rows_nf px) = true.
Proof. destruct px; vm_compute; reflexivity. Qed.
Lemma map_eq_in {X Y} (f g : X -> Y) l : map f l = map g l -> forall x, In x l -> f x = g x.
Proof. induction l as [|y l IH]; cbn; [easy|]. intros [= E1 E2] x [<-|H]; auto. Qed.
Lemma template_of px code text : In (code, text) (tested px) -> find_key text cycle_table = template (is_some px) code.
Proof. rewrite tested_nf, cycles_nf. intros H. exact (map_eq_in _ _ _ (lookup px) _ H). Qed.
Lemma has_cycles px code text : In (code, text) (tested px) -> exists ic, find_key text cycle_table = Some ic.
Proof.
  intros H. rewrite (template_of _ _ _ H). rewrite tested_nf in H.
  pose proof (proj1 (forallb_forall _ _) (all_defined px) _ H) as E. unfold defined in E. cbn [fst] in E.
  destruct (template _ _); [eauto|discriminate].
Qed.
Definition used (t : string) : bool := existsb (fun e => String.eqb t (snd e)) (main_nf ++ pfx_nf).
Lemma all_used : forallb used (map fst cyc_nf) = true.
Proof. vm_compute. reflexivity. Qed.
Lemma cycles_used text : In text (map fst cycle_table) -> exists px code, In (code, text) (tested px).
Proof.
  rewrite cycles_nf. intros H. pose proof (proj1 (forallb_forall _ _) all_used _ H) as E. unfold used in E.
  apply existsb_exists in E. destruct E as ([code t] & HI & E). apply String.eqb_eq in E. cbn [snd] in E. subst t.
  apply in_app_or in HI. destruct HI as [HI|HI]; [exists None|exists (Some Xdd)]; exists code; rewrite tested_nf; exact HI.
Qed.

Section Run.
Context {Q T TS WB RB : Type}.
Variables (FL : Flavour Q) (ch : chip T) (absq : Q -> T).
Context (OK : models FL ch absq).
Lemma ranges_abs (c : cpu Q) : wf c -> ranges (abs absq c).
Proof.
  intros Hw. unfold ranges, abs. cbn [aPC aBC aDE aHL aSP aIX aIY aA aI aR].
  pose proof (wf_get_acc c Hw). pose proof (wf_get_r c). 
  assert (byte (get_i c)) by (unfold get_i; auto with rng).
  unfold byte, word in *. destruct Hw. unfold word in *. tauto.
Qed.
Lemma instruction_cycles px code text ic : In (code, text) (tested px) -> find_key text cycle_table = Some ic ->
  forall dbg (c : cpu Q), wf c -> prefix c = None -> halt c = false ->
  runs (TS := TS) (WB := WB) (RB := RB) (instruction FL dbg px c) (fun _ bl cl => forall m,
    not_taken bl -> supplied m bl -> stored m (pc c) (opcode_bytes px code ic (m (w (pc c + 2)))) ->
    let a := abs absq c in let n := size px code ic in
    ticks cl = flat_map (tick_of px a m n) (performed a m ic) /\ accesses bl = flat_map (access_of px a m n) (performed a m ic)).
Proof.
  intros HI HT dbg c Hw HP HH. rewrite (template_of _ _ _ HI) in HT. destruct px as [p|]; cbn [instruction is_some] in *.
  - apply (runs_bind _ _ _ _ (execute_next_follows FL ch absq (models_ok _ _ _ OK) dbg c Hw)).
    intros x bl cl D (Hw1 & o & _ & HA). generalize (execute_next_follows (TS:=TS) (WB:=WB) (RB:=RB) FL ch absq (models_ok _ _ _ OK) dbg (fst x) Hw1). apply runs_mono.
    intros y bl2 cl2 D2 (_ & o2 & _ & HA2) m HN HS HM.
    assert (HN1 : not_taken bl).
    { destruct bl as [|[] ?]; try exact I. exact HN. }
    exact (prefixed_agree ch p (abs absq c) m code ic bl bl2 cl cl2 (abs absq (fst x), o) (abs absq (fst y), o2)
             (ranges_abs c Hw) HP HH HN1 HS (proj2 (Forall_app _ _ _) (conj D D2)) HT HM HA HA2).
  - generalize (execute_next_follows (TS:=TS) (WB:=WB) (RB:=RB) FL ch absq (models_ok _ _ _ OK) dbg c Hw). apply runs_mono.
    intros x bl cl D (_ & o & _ & HA) m HN HS HM.
    exact (unprefixed_agree ch (abs absq c) m code ic bl cl (abs absq (fst x), o) (ranges_abs c Hw) HP HH HN HS D HT HM HA).
Qed.
End Run.
