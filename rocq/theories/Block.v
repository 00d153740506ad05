(** Repeating instructions run to completion: proofs for [PropBlock]. *)
From Coq Require Import ZArith Bool List Lia.
From Verif Require Import Base Flags Ops Parse Cpu Flavours Prog Trace Internal Instr Exec Range SafeRun Clock ClockProofs
  SpecAlu SpecState SpecIsa SpecCycles SpecStep SpecBlock IsaLink IsaCycles IsaExec IsaRun Steps Int.
Import ListNotations.
Open Scope Z_scope.
Ltac Zify.zify_post_hook ::= Z.div_mod_to_equations.

Lemma runl_quiet {TS WB RB BS CK A} (Hs : host TS WB RB BS CK) (p : prog TS WB RB A) :
  (forall b t, snd (h_is_irq Hs b t) = false) ->
  forall b k a b' k' l, runl Hs p b k = Some (a, b', k', l) -> ~ In (VIrq true) (buses l).
Proof.
  intros HQ. induction p; intros b0 k0 a0 b' k' l0 E; cbn [runl] in E.
  1: { injection E as <- <- <- <-. cbn. tauto. }
  1: discriminate.
  all: repeat match type of E with context [let (_, _) := ?x in _] => let F := fresh "F" in destruct x eqn:F end.
  all: cbv zeta in E; apply cons_log_inv in E; destruct E as (l' & E & ->).
  all: change (buses (?e :: l')) with (bus1 e ++ buses l').
  all: first [ apply H in E | apply IHp in E ].
  all: intros HN; apply in_app_or in HN; destruct HN as [HN|HN]; [|now apply E in HN].
  all: cbn in HN; try contradiction; try (repeat destruct HN as [HN|HN]; discriminate || contradiction).
  destruct HN as [HN|[]]. injection HN as HN. specialize (HQ b0 ts). rewrite F in HQ. cbn in HQ. congruence.
Qed.

Section Block.
Context {Q T TS WB RB BS CK : Type}.
Variable FL : Flavour Q.
Variable ch : chip T.
Variable absq : Q -> T.
Hypothesis OK : chip_ok FL ch absq.
Variable Hs : host TS WB RB BS CK.
Variable mo : BS -> mem.
Hypothesis HR : ram_host Hs mo.
Implicit Types c : cpu Q.
Notation bevs := (list (bev WB RB)).

Definition polls c : bevs := if is_irq_allowed c then [VIrq false] else [].
Definition fetched c : arch T := wPC (w16 (pc c + 1)) (inc_R (abs absq c)).
(** One uninterrupted step. *)
Lemma op_run dbg c b k : wf c -> halt c = false -> quiet Hs c ->
  exists c' b' k' l bl' cl' o, runl Hs (execute_next FL dbg c) b k = Some ((c', result_of o), b', k', l) /\
    data (buses l) = data bl' /\ clocks l = TM1 (pc c) :: cl' /\ wf c' /\
    Forall data_byte bl' /\ ram_log (mo b) bl' (mo b') /\
    accepts (exec ch (mo b (pc c)) (fetched c)) bl' cl' (abs absq c', o).
Proof.
  intros Hw HH HQ.
  destruct (execute_next_follows FL ch absq OK dbg c Hw BS CK Hs b k) as ([c' r'] & b' & k' & l & E & HD & W & o & EO & HA).
  cbn [fst snd] in EO. subst r'.
  assert (HM := runl_ram Hs mo _ HR _ _ _ _ _ _ E).
  assert (HN : is_irq_allowed c = true -> ~ In (VIrq true) (buses l)).
  { intros EA. destruct HQ as [HQ|HQ]; [|exact (runl_quiet Hs _ HQ _ _ _ _ _ _ E)].
    unfold is_irq_allowed in EA. rewrite HQ in EA. discriminate. }
  cbn [fst snd] in *.
  unfold next in HA. rewrite <- allowed_abs in HA. cbv zeta in HA. change (aHALT (abs absq c)) with (halt c) in HA. rewrite HH in HA.
  exists c', b', k', l.
  assert (G : forall bl, buses l = polls c ++ bl -> Forall data_byte bl -> ram_log (mo b) bl (mo b') ->
    accepts (fetch (abs absq c) (exec ch)) bl (clocks l) (abs absq c', o) ->
    exists bl' cl' o0, runl Hs (execute_next FL dbg c) b k = Some ((c', result_of o0), b', k', l) /\
    data (buses l) = data bl' /\ clocks l = TM1 (pc c) :: cl' /\ wf c' /\
    Forall data_byte bl' /\ ram_log (mo b) bl' (mo b') /\
    accepts (exec ch (mo b (pc c)) (fetched c)) bl' cl' (abs absq c', o0)).
  { intros bl EB HD1 HM1 HA1. unfold fetch in HA1. apply acc_m1 in HA1. destruct HA1 as (v & bl' & cl' & -> & EC & HA1).
    cbv beta zeta in HA1. cbn [ram_log] in HM1. destruct HM1 as [-> HM1]. inversion HD1; subst.
    exists bl', cl', o. split; [exact E|]. split. { rewrite EB. unfold polls. now destruct (is_irq_allowed c). }
    split; [exact EC|]. split; [exact W|]. split; [assumption|]. split; [exact HM1|exact HA1]. }
  unfold polls in G. destruct (is_irq_allowed c) eqn:EA.
  - apply acc_irq in HA. destruct HA as (q & bl & EB & HA). destruct q; [exfalso; apply HN; [reflexivity|rewrite EB; now left]|].
    apply (G bl); [exact EB| | |exact HA].
    + rewrite EB in HD. now inversion HD.
    + rewrite EB in HM. exact HM.
  - now apply (G (buses l)).
Qed.
(** ... of an ED instruction. *)
Definition fetched2 c : arch T :=
  let a := inc_R (wPX None (wQ (c_begin ch (absq (flavour c))) (wEI false (wHALT false (fetched c))))) in
  wPC (w16 (aPC a + 1)) a.
Lemma ed_run dbg c b k : wf c -> halt c = false -> quiet Hs c -> mo b (pc c) = 0xED ->
  exists c' b' k' l bl' cl' o, runl Hs (execute_next FL dbg c) b k = Some ((c', result_of o), b', k', l) /\
    data (buses l) = data bl' /\ clocks l = TM1 (pc c) :: TM1 (w16 (pc c + 1)) :: cl' /\ wf c' /\
    Forall data_byte bl' /\ ram_log (mo b) bl' (mo b') /\
    accepts (ed_step ch (ed_decode (mo b (w16 (pc c + 1)))) (fetched2 c)) bl' cl' (abs absq c', o).
Proof.
  intros Hw HH HQ HE. destruct (op_run dbg c b k Hw HH HQ) as (c' & b' & k' & l & bl' & cl' & o & E & ED & EC & W & HD & HM & HA).
  rewrite HE in HA. unfold exec, exec_op in HA. change (decode 0xED) with I_ED in HA. cbn [step] in HA. unfold fetch in HA.
  apply acc_m1 in HA. destruct HA as (v & bl2 & cl2 & -> & -> & HA). cbv beta zeta in HA.
  cbn [ram_log] in HM. destruct HM as [-> HM]. inversion HD; subst.
  exists c', b', k', l, bl2, cl2, o. rewrite ED. split; [exact E|]. split; [reflexivity|]. split; [exact EC|]. split; [exact W|].
  split; [assumption|]. split; [exact HM|exact HA].
Qed.
(** The state in which an ED instruction starts. *)
Record ready c (a : arch T) : Prop := mkReady {
  y_a : aA a = get_acc c; y_f : aF a = get_flags c; y_bc : aBC a = bc c; y_de : aDE a = de c; y_hl : aHL a = hl c;
  y_af' : aAF' a = af_alt c; y_bc' : aBC' a = bc_alt c; y_de' : aDE' a = de_alt c; y_hl' : aHL' a = hl_alt c;
  y_ix : aIX a = ix c; y_iy : aIY a = iy c; y_sp : aSP a = sp c; y_i : aI a = get_i c; y_im : aIM a = im c;
  y_iff1 : aIFF1 a = iff1 c; y_iff2 : aIFF2 a = iff2 c; y_halt : aHALT a = false; y_ei : aEI a = false; y_px : aPX a = None }.
Lemma ready2 c : ready c (fetched2 c).
Proof. constructor; reflexivity. Qed.
Lemma fetched2_pc c : aPC (fetched2 c) = (pc c + 2) mod 65536.
Proof. change (aPC (fetched2 c)) with (w16 (w16 (pc c + 1) + 1)). unfold w16. lia. Qed.
Lemma back2 c : wf c -> w16 ((pc c + 2) mod 65536 - 2) = pc c.
Proof. intros [ ]. unfold w16, word in *. lia. Qed.
Ltac cfa := cbn [wPC wWZ wSP wEI wPX wQ wIFF1 wIFF2 wHALT wR wI wIM wA wF wBC wDE wHL wIX wIY jump s_f again
  aA aF aBC aDE aHL aAF' aBC' aDE' aHL' aIX aIY aSP aPC aWZ aI aR aIM aIFF1 aIFF2 aHALT aEI aPX aQ].
Ltac cfi H := cbn [wPC wWZ wSP wEI wPX wQ wIFF1 wIFF2 wHALT wR wI wIM wA wF wBC wDE wHL wIX wIY jump s_f again
  aA aF aBC aDE aHL aAF' aBC' aDE' aHL' aIX aIY aSP aPC aWZ aI aR aIM aIFF1 aIFF2 aHALT aEI aPX aQ] in H.
Record rest_a (a a' : arch T) : Prop := mkRestA {
  ra_a : aA a' = aA a; ra_af' : aAF' a' = aAF' a; ra_bc' : aBC' a' = aBC' a; ra_de' : aDE' a' = aDE' a; ra_hl' : aHL' a' = aHL' a;
  ra_ix : aIX a' = aIX a; ra_iy : aIY a' = aIY a; ra_sp : aSP a' = aSP a; ra_i : aI a' = aI a; ra_im : aIM a' = aIM a;
  ra_iff1 : aIFF1 a' = aIFF1 a; ra_iff2 : aIFF2 a' = aIFF2 a; ra_halt : aHALT a' = aHALT a; ra_ei : aEI a' = aEI a;
  ra_px : aPX a' = aPX a }.
Lemma rest_cpu c c' a : ready c a -> rest_a a (abs absq c') -> same_rest c c'.
Proof. intros [ ] [ ]. cbn [abs aA aAF' aBC' aDE' aHL' aIX aIY aSP aI aIM aIFF1 aIFF2 aHALT aEI aPX] in *. constructor; congruence. Qed.

Lemma acc_ldx (dn : bool) (a : arch T) (bl : bevs) cl a' o : accepts (ed_step ch (D_LDx dn true) a) bl cl (a', o) ->
  exists v, bl = [VRd (aHL a) v; VWr (aDE a) v] /\ o = ONext /\ rest_a a a' /\ aBC a' = (aBC a - 1) mod 65536 /\
    aHL a' = (aHL a + dir dn) mod 65536 /\ aDE a' = (aDE a + dir dn) mod 65536 /\
    aPC a' = (if aBC a' =? 0 then aPC a else w16 (aPC a - 2)) /\
    aF a' = s_ldx (aA a) v (aBC a' =? 0) (aF a) /\ tsum cl = if aBC a' =? 0 then 8 else 13.
Proof.
  intros H. cbn [ed_step] in H. unfold done in H. cbv zeta in H. cbn [andb] in H. acc1. exists x. acc1. acc1. unfold w16 in *.
  destruct ((aBC a - 1) mod 65536 =? 0) eqn:EN; cbn [negb] in H; accs.
  all: match goal with X : (_, _) = (_, _) |- _ => injection X as <- <- end; cfa; rewrite ?EN.
  all: repeat (split; [first [reflexivity|constructor; reflexivity]|]); reflexivity.
Qed.
Lemma ldx_step dbg (dn : bool) c b k : wf c -> halt c = false -> quiet Hs c ->
  mo b (pc c) = 0xED -> mo b (w16 (pc c + 1)) = (if dn then 0xB8 else 0xB0) ->
  exists c' b' k' (l : list (ev TS WB RB)), runl Hs (execute_next FL dbg c) b k = Some ((c', None), b', k', l) /\ wf c' /\
    same_rest c c' /\ bc c' = (bc c - 1) mod 65536 /\ hl c' = (hl c + dir dn) mod 65536 /\ de c' = (de c + dir dn) mod 65536 /\
    pc c' = (if bc c' =? 0 then (pc c + 2) mod 65536 else pc c) /\
    get_flags c' = s_ldx (get_acc c) (mo b (hl c)) (bc c' =? 0) (get_flags c) /\
    (forall a, mo b' a = if a =? de c then mo b (hl c) else mo b a) /\
    tsum (clocks l) = if bc c' =? 0 then 16 else 21.
Proof.
  intros Hw HH HQ H1 H2.
  destruct (ed_run dbg c b k Hw HH HQ H1) as (c' & b' & k' & l & bl' & cl' & o & E & ED & EC & W & HD & HM & HA).
  exists c', b', k', l.
  rewrite H2 in HA. replace (ed_decode _) with (D_LDx dn true) in HA by (destruct dn; reflexivity).
  assert (Y := ready2 c). assert (YP := fetched2_pc c). generalize dependent (fetched2 c). intros a HA Y YP.
  apply acc_ldx in HA. destruct HA as (v & -> & -> & R & A1 & A2 & A3 & A4 & A5 & A6).
  cbn [ram_log] in HM. destruct HM as [-> HM]. inversion HD as [|? ? D1 HD1]; subst. cbn [data_byte] in D1. unfold isbyte in D1.
  rewrite YP in A4. rewrite back2 in A4 by exact Hw.
  rewrite (y_bc _ _ Y) in A1. rewrite (y_hl _ _ Y) in *. rewrite (y_de _ _ Y) in *. rewrite (y_a _ _ Y), (y_f _ _ Y) in *.
  cbn [abs aBC aHL aDE aPC aF] in *.
  split; [exact E|]. split; [exact W|]. split; [exact (rest_cpu _ _ _ Y R)|].
  split; [exact A1|]. split; [exact A2|]. split; [exact A3|]. split; [exact A4|]. split; [exact A5|].
  split.
  - intros x. rewrite HM. unfold mupd. destruct (x =? de c); [apply Z.mod_small; exact D1|reflexivity].
  - rewrite EC. rewrite !tsum_cons, A6. cbn [tstates]. destruct (bc c' =? 0); reflexivity.
Qed.

Lemma acc_cpx (dn : bool) (a : arch T) (bl : bevs) cl a' o : accepts (ed_step ch (D_CPx dn true) a) bl cl (a', o) ->
  exists v, bl = [VRd (aHL a) v] /\ o = ONext /\ rest_a a a' /\ aDE a' = aDE a /\ aBC a' = (aBC a - 1) mod 65536 /\
    aHL a' = (aHL a + dir dn) mod 65536 /\
    aPC a' = (if (aBC a' =? 0) || (aA a =? v) then aPC a else w16 (aPC a - 2)) /\
    aF a' = s_cpx (aA a) v (aBC a' =? 0) (aF a) /\ tsum cl = if (aBC a' =? 0) || (aA a =? v) then 8 else 13.
Proof.
  intros H. cbn [ed_step] in H. unfold done in H. cbv zeta in H. cbn [andb] in H. acc1. exists x. acc1. unfold w16 in *.
  destruct (((aBC a - 1) mod 65536 =? 0) || (aA a =? x)) eqn:EN; cbn [negb] in H; accs.
  all: match goal with X : (_, _) = (_, _) |- _ => injection X as <- <- end; cfa; rewrite ?EN.
  all: repeat (split; [first [reflexivity|constructor; reflexivity]|]); reflexivity.
Qed.
Lemma cpx_step dbg (dn : bool) c b k : wf c -> halt c = false -> quiet Hs c ->
  mo b (pc c) = 0xED -> mo b (w16 (pc c + 1)) = (if dn then 0xB9 else 0xB1) ->
  exists c' b' k' (l : list (ev TS WB RB)), runl Hs (execute_next FL dbg c) b k = Some ((c', None), b', k', l) /\ wf c' /\
    same_rest c c' /\ de c' = de c /\ bc c' = (bc c - 1) mod 65536 /\ hl c' = (hl c + dir dn) mod 65536 /\
    pc c' = (if (bc c' =? 0) || (get_acc c =? mo b (hl c)) then (pc c + 2) mod 65536 else pc c) /\
    get_flags c' = s_cpx (get_acc c) (mo b (hl c)) (bc c' =? 0) (get_flags c) /\
    (forall a, mo b' a = mo b a) /\
    tsum (clocks l) = if (bc c' =? 0) || (get_acc c =? mo b (hl c)) then 16 else 21.
Proof.
  intros Hw HH HQ H1 H2.
  destruct (ed_run dbg c b k Hw HH HQ H1) as (c' & b' & k' & l & bl' & cl' & o & E & ED & EC & W & HD & HM & HA).
  exists c', b', k', l.
  rewrite H2 in HA. replace (ed_decode _) with (D_CPx dn true) in HA by (destruct dn; reflexivity).
  assert (Y := ready2 c). assert (YP := fetched2_pc c). generalize dependent (fetched2 c). intros a HA Y YP.
  apply acc_cpx in HA. destruct HA as (v & -> & -> & R & A0 & A1 & A2 & A4 & A5 & A6).
  cbn [ram_log] in HM. destruct HM as [-> HM].
  rewrite YP in A4. rewrite back2 in A4 by exact Hw.
  rewrite (y_bc _ _ Y) in A1. rewrite (y_hl _ _ Y) in *. rewrite (y_de _ _ Y) in *. rewrite (y_a _ _ Y) in *. rewrite (y_f _ _ Y) in *.
  cbn [abs aBC aHL aDE aPC aF] in *.
  split; [exact E|]. split; [exact W|]. split; [exact (rest_cpu _ _ _ Y R)|].
  split; [exact A0|]. split; [exact A1|]. split; [exact A2|]. split; [exact A4|]. split; [exact A5|].
  split; [exact HM|].
  rewrite EC. rewrite !tsum_cons, A6. cbn [tstates]. destruct (_ || _); reflexivity.
Qed.

Lemma bc_dec x : word x -> word_of (w8 (hi x - 1)) (lo x) = (x - 256) mod 65536.
Proof. unfold word, word_of, w8, hi, lo. lia. Qed.
Lemma hi_dec x : word x -> w8 (hi x - 1) = hi ((x - 256) mod 65536).
Proof. unfold word, w8, hi. lia. Qed.
Lemma acc_inx (dn : bool) (a : arch T) (bl : bevs) cl a' o : word (aBC a) -> accepts (ed_step ch (D_INx dn true) a) bl cl (a', o) ->
  exists v w, bl = [VIn (aBC a) v w; VWr (aHL a) v] /\ o = ONext /\ rest_a a a' /\ aDE a' = aDE a /\
    aBC a' = (aBC a - 256) mod 65536 /\ aHL a' = (aHL a + dir dn) mod 65536 /\
    aPC a' = (if hi (aBC a') =? 0 then aPC a else w16 (aPC a - 2)) /\
    aF a' = s_iox v (hi (aBC a')) ((lo (aBC a) + dir dn) mod 256) /\
    tsum cl = (if hi (aBC a') =? 0 then 8 else 13) + wait_of (VIn (WB:=WB) (RB:=RB) (aBC a) v w).
Proof.
  intros HW H. cbn [ed_step] in H. unfold done in H. cbv zeta in H. cbn [andb] in H. rewrite bc_dec in H by exact HW.
  rewrite hi_dec in H by exact HW. unfold w16, w8 in H.
  destruct (hi ((aBC a - 256) mod 65536) =? 0) eqn:EN; cbn [negb] in H; accs.
  all: match goal with X : (_, _) = (_, _) |- _ => injection X as <- <- end; eexists _, _; cfa; rewrite ?EN.
  all: repeat (split; [first [reflexivity|constructor; reflexivity]|]).
  all: match goal with |- context [wait_of (VIn _ _ ?w)] => destruct w; cbn [wait_of]; cbn [app]; rewrite ?tsum_cons; cbn [tstates]; change (tsum []) with 0; lia end.
Qed.
Lemma acc_outx (dn : bool) (a : arch T) (bl : bevs) cl a' o : word (aBC a) -> accepts (ed_step ch (D_OUTx dn true) a) bl cl (a', o) ->
  exists v r w, bl = [VRd (aHL a) v; VOut ((aBC a - 256) mod 65536) v r w] /\
    o = match r with Some x => OOut x | None => ONext end /\ rest_a a a' /\ aDE a' = aDE a /\
    aBC a' = (aBC a - 256) mod 65536 /\ aHL a' = (aHL a + dir dn) mod 65536 /\
    aPC a' = (if hi (aBC a') =? 0 then aPC a else w16 (aPC a - 2)) /\
    aF a' = s_iox v (hi (aBC a')) (lo (aHL a')) /\
    tsum cl = (if hi (aBC a') =? 0 then 8 else 13) + wait_of (VOut (WB:=WB) (RB:=RB) (aBC a') v r w).
Proof.
  intros HW H. cbn [ed_step] in H. unfold done in H. cbv zeta in H. cbn [andb] in H. rewrite bc_dec in H by exact HW.
  rewrite hi_dec in H by exact HW. unfold w16, w8 in H.
  destruct (hi ((aBC a - 256) mod 65536) =? 0) eqn:EN; cbn [negb] in H; accs.
  all: match goal with X : (_, _) = (_, _) |- _ => injection X as <- <- end; eexists _, _, _; cfa; rewrite ?EN.
  all: repeat (split; [first [reflexivity|constructor; reflexivity]|]).
  all: match goal with |- context [wait_of (VOut _ _ _ ?w)] => destruct w; cbn [wait_of]; cbn [app]; rewrite ?tsum_cons; cbn [tstates]; change (tsum []) with 0; lia end.
Qed.

Lemma inx_step dbg (dn : bool) c b k : wf c -> halt c = false -> quiet Hs c ->
  mo b (pc c) = 0xED -> mo b (w16 (pc c + 1)) = (if dn then 0xBA else 0xB2) ->
  exists c' b' k' (l : list (ev TS WB RB)) v w, runl Hs (execute_next FL dbg c) b k = Some ((c', None), b', k', l) /\ wf c' /\
    same_rest c c' /\ isbyte v /\ data (buses l) = [VIn (bc c) v w; VWr (hl c) v] /\
    de c' = de c /\ bc c' = (bc c - 256) mod 65536 /\ hl c' = (hl c + dir dn) mod 65536 /\
    pc c' = (if bc c' / 256 =? 0 then (pc c + 2) mod 65536 else pc c) /\
    get_flags c' = s_iox v (bc c' / 256) ((bc c + dir dn) mod 256) /\
    (forall a, mo b' a = if a =? hl c then v else mo b a) /\
    tsum (clocks l) = (if bc c' / 256 =? 0 then 16 else 21) + waits (data (buses l)).
Proof.
  intros Hw HH HQ H1 H2.
  destruct (ed_run dbg c b k Hw HH HQ H1) as (c' & b' & k' & l & bl' & cl' & o & E & ED & EC & W & HD & HM & HA).
  exists c', b', k', l.
  rewrite H2 in HA. replace (ed_decode _) with (D_INx dn true) in HA by (destruct dn; reflexivity).
  assert (Y := ready2 c). assert (YP := fetched2_pc c). generalize dependent (fetched2 c). intros a HA Y YP.
  assert (WB' : word (aBC a)) by (rewrite (y_bc _ _ Y); apply Hw).
  apply (acc_inx _ _ _ _ _ _ WB') in HA. destruct HA as (v & w & -> & -> & R & A0 & A1 & A2 & A4 & A5 & A6).
  cbn [ram_log] in HM. inversion HD as [|? ? D1 HD1]; subst. cbn [data_byte] in D1. unfold isbyte in D1.
  rewrite YP in A4. rewrite back2 in A4 by exact Hw.
  rewrite (y_bc _ _ Y) in *. rewrite (y_hl _ _ Y) in *. rewrite (y_de _ _ Y) in *. cbn [abs aBC aHL aDE aPC aF] in *.
  unfold hi in *. rewrite ED. exists v, w.
  split; [exact E|]. split; [exact W|]. split; [exact (rest_cpu _ _ _ Y R)|]. split; [exact D1|]. split; [reflexivity|].
  split; [exact A0|]. split; [exact A1|]. split; [exact A2|]. split; [exact A4|].
  split. { rewrite A5. f_equal. unfold lo. lia. }
  split.
  - intros x. rewrite HM. unfold mupd. destruct (x =? hl c); [apply Z.mod_small; exact D1|reflexivity].
  - rewrite EC. rewrite !tsum_cons, A6. cbn [tstates]. change (waits (data [VIn (bc c) v w; VWr (hl c) v]))
      with (wait_of (WB:=WB) (RB:=RB) (VIn (bc c) v w) + (0 + 0)).
    destruct (bc c' / 256 =? 0); lia.
Qed.
Lemma outx_step dbg (dn : bool) c b k : wf c -> halt c = false -> quiet Hs c ->
  mo b (pc c) = 0xED -> mo b (w16 (pc c + 1)) = (if dn then 0xBB else 0xB3) ->
  exists c' b' k' (l : list (ev TS WB RB)) r w,
    runl Hs (execute_next FL dbg c) b k = Some ((c', option_map BWriteIo r), b', k', l) /\ wf c' /\
    same_rest c c' /\ data (buses l) = [VRd (hl c) (mo b (hl c)); VOut ((bc c - 256) mod 65536) (mo b (hl c)) r w] /\
    de c' = de c /\ bc c' = (bc c - 256) mod 65536 /\ hl c' = (hl c + dir dn) mod 65536 /\
    pc c' = (if bc c' / 256 =? 0 then (pc c + 2) mod 65536 else pc c) /\
    get_flags c' = s_iox (mo b (hl c)) (bc c' / 256) (hl c' mod 256) /\
    (forall a, mo b' a = mo b a) /\
    tsum (clocks l) = (if bc c' / 256 =? 0 then 16 else 21) + waits (data (buses l)).
Proof.
  intros Hw HH HQ H1 H2.
  destruct (ed_run dbg c b k Hw HH HQ H1) as (c' & b' & k' & l & bl' & cl' & o & E & ED & EC & W & HD & HM & HA).
  exists c', b', k', l.
  rewrite H2 in HA. replace (ed_decode _) with (D_OUTx dn true) in HA by (destruct dn; reflexivity).
  assert (Y := ready2 c). assert (YP := fetched2_pc c). generalize dependent (fetched2 c). intros a HA Y YP.
  assert (WB' : word (aBC a)) by (rewrite (y_bc _ _ Y); apply Hw).
  apply (acc_outx _ _ _ _ _ _ WB') in HA. destruct HA as (v & r & w & -> & EO & R & A0 & A1 & A2 & A4 & A5 & A6).
  cbn [ram_log] in HM. destruct HM as [-> HM].
  rewrite YP in A4. rewrite back2 in A4 by exact Hw.
  rewrite (y_bc _ _ Y) in *. rewrite (y_hl _ _ Y) in *. rewrite (y_de _ _ Y) in *. cbn [abs aBC aHL aDE aPC aF] in *.
  unfold hi in *. rewrite ED. exists r, w.
  split. { rewrite E, EO. now destruct r. } split; [exact W|]. split; [exact (rest_cpu _ _ _ Y R)|]. split; [reflexivity|].
  split; [exact A0|]. split; [exact A1|]. split; [exact A2|]. split; [exact A4|]. split; [exact A5|].
  split; [exact HM|].
  rewrite EC. rewrite !tsum_cons, A6. cbn [tstates].
  change (waits (data [VRd (hl c) (mo b (hl c)); VOut ((bc c - 256) mod 65536) (mo b (hl c)) r w]))
    with (0 + (wait_of (WB:=WB) (RB:=RB) (VOut (bc c') (mo b (hl c)) r w) + 0)).
  destruct (bc c' / 256 =? 0); lia.
Qed.

Lemma acc_djnz px q (a : arch T) (bl : bevs) cl a' o : word (aBC a) -> accepts (step ch px I_DJNZ q a) bl cl (a', o) ->
  exists e, bl = (if hi (aBC a') =? 0 then [] else [VRd (aPC a) e]) /\ o = ONext /\ rest_a a a' /\
    aHL a' = aHL a /\ aDE a' = aDE a /\ aF a' = aF a /\
    aBC a' = (aBC a - 256) mod 65536 /\
    aPC a' = (if hi (aBC a') =? 0 then w16 (aPC a + 1) else disp (w16 (aPC a + 1)) e) /\
    tsum cl = (if hi (aBC a') =? 0 then 4 else 9).
Proof.
  intros HW H. cbn [step] in H. unfold done in H. cbv zeta in H. rewrite bc_dec in H by exact HW.
  rewrite hi_dec in H by exact HW. 
  destruct (hi ((aBC a - 256) mod 65536) =? 0) eqn:EN; unfold imm8x in H; accs.
  all: match goal with X : (_, _) = (_, _) |- _ => injection X as <- <- end; first [exists x0|exists 0]; cfa; rewrite ?EN.
  all: repeat (split; [first [reflexivity|constructor; reflexivity]|]).
  all: reflexivity.
Qed.
Lemma djnz_step dbg c b k : wf c -> halt c = false -> quiet Hs c ->
  mo b (pc c) = 0x10 -> mo b (w16 (pc c + 1)) = 0xFE ->
  exists c' b' k' (l : list (ev TS WB RB)), runl Hs (execute_next FL dbg c) b k = Some ((c', None), b', k', l) /\ wf c' /\
    same_rest c c' /\ hl c' = hl c /\ de c' = de c /\ get_flags c' = get_flags c /\ bc c' = (bc c - 256) mod 65536 /\
    pc c' = (if bc c' / 256 =? 0 then (pc c + 2) mod 65536 else pc c) /\
    (forall a, mo b' a = mo b a) /\
    tsum (clocks l) = if bc c' / 256 =? 0 then 8 else 13.
Proof.
  intros Hw HH HQ H1 H2.
  destruct (op_run dbg c b k Hw HH HQ) as (c' & b' & k' & l & bl' & cl' & o & E & ED & EC & W & HD & HM & HA).
  exists c', b', k', l.
  rewrite H1 in HA. unfold exec, exec_op in HA. change (decode 0x10) with I_DJNZ in HA. cbv zeta in HA.
  set (a := wPX None (wQ (c_begin ch (aQ (wEI false (wHALT false (fetched c))))) (wEI false (wHALT false (fetched c))))) in HA.
  assert (Y : ready c a) by (constructor; reflexivity).
  assert (YP : aPC a = w16 (pc c + 1)) by reflexivity. clearbody a.
  assert (WB' : word (aBC a)) by (rewrite (y_bc _ _ Y); apply Hw).
  apply (acc_djnz _ _ _ _ _ _ _ WB') in HA. destruct HA as (e & -> & -> & R & A0 & A1 & A2 & A3 & A4 & A5).
  rewrite YP in *. rewrite (y_bc _ _ Y) in *. rewrite (y_hl _ _ Y) in *. rewrite (y_de _ _ Y) in *. rewrite (y_f _ _ Y) in *.
  cbn [abs aBC aHL aDE aPC aF] in *. unfold hi in *.
  split; [exact E|]. split; [exact W|]. split; [exact (rest_cpu _ _ _ Y R)|].
  split; [exact A0|]. split; [exact A1|]. split; [exact A2|]. split; [exact A3|].
  rewrite EC, tsum_cons, A5. cbn [tstates].
  destruct (bc c' / 256 =? 0); cbn [ram_log] in HM.
  - split; [rewrite A4; unfold w16; lia|]. split; [exact HM|lia].
  - destruct HM as [-> HM]. rewrite H2 in A4. split; [rewrite A4|split; [exact HM|lia]].
    destruct Hw as [ ]. unfold disp, signed8, w16, word in *. change (if 254 <? 128 then 254 else 254 - 256) with (-2). lia.
Qed.

(** ** Loops *)
Lemma tsum_app l1 l2 : tsum (l1 ++ l2) = tsum l1 + tsum l2.
Proof. induction l1 as [|e l1 IH]; cbn [app]; rewrite ?tsum_cons; [reflexivity|lia]. Qed.
Lemma waits_app (l1 l2 : bevs) : waits (l1 ++ l2) = waits l1 + waits l2.
Proof. induction l1 as [|e l1 IH]; [reflexivity|]. unfold waits, SpecCycles.sum in *. cbn [app map fold_right] in *. lia. Qed.
Lemma data_app (l1 l2 : bevs) : data (l1 ++ l2) = data l1 ++ data l2.
Proof. apply filter_app. Qed.
Lemma waits_data (l : bevs) : waits (data l) = waits l.
Proof.
  induction l as [|e l IH]; [reflexivity|]. change (e :: l) with ([e] ++ l). rewrite data_app, !waits_app, IH. now destruct e.
Qed.
Lemma same_quiet c c' : same_rest c c' -> quiet Hs c -> quiet Hs c'.
Proof. intros S [H|H]; [left; now rewrite (sr_iff1 _ _ S)|now right]. Qed.
Lemma same_trans c1 c2 c3 : same_rest c1 c2 -> same_rest c2 c3 -> same_rest c1 c3.
Proof. intros [ ] [ ]. constructor; congruence. Qed.
Lemma copy_ext n d : forall s t m m', (forall a, m a = m' a) -> forall a, copy n d s t m a = copy n d s t m' a.
Proof.
  induction n as [|n IH]; intros s t m m' HE a; cbn [copy]; [apply HE|]. apply IH. intros x. now rewrite !HE.
Qed.
Lemma store_ext l d : forall t m m', (forall a, m a = m' a) -> forall a, store_list l d t m a = store_list l d t m' a.
Proof.
  induction l as [|v l IH]; intros t m m' HE a; cbn [store_list]; [apply HE|]. apply IH. intros x. now rewrite !HE.
Qed.
Lemma nth_succ a d i : nth_addr ((a + d) mod 65536) d i = nth_addr a d (i + 1).
Proof. unfold nth_addr. rewrite <- Zplus_mod_idemp_l, Z.mod_mod, Zplus_mod_idemp_l by lia. f_equal. lia. Qed.
Lemma nth_0 a d : word a -> nth_addr a d 0 = a.
Proof. unfold nth_addr, word. intros. rewrite Z.mul_0_r, Z.add_0_r. now apply Z.mod_small. Qed.
Lemma nth_1 a d : (a + d) mod 65536 = nth_addr a d 1.
Proof. unfold nth_addr. now rewrite Z.mul_1_r. Qed.
Lemma steps_one dbg c b k c1 r b1 k1 l1 n (HD : dbg = false) :
  runl Hs (execute_next FL dbg c) b k = Some ((c1, r), b1, k1, l1) ->
  runl (A:=cpu Q) Hs (steps FL (S n) c) b k =
  match runl Hs (steps FL n c1) b1 k1 with Some (y, b2, k2, l2) => Some (y, b2, k2, l1 ++ l2) | None => None end.
Proof. intros E. cbn [steps]. rewrite runl_bind. subst dbg. rewrite E. reflexivity. Qed.
Lemma s_ldx_idem a v w x y f : s_ldx a v x (s_ldx a w y f) = s_ldx a v x f.
Proof.
  unfold s_ldx, flagbyte, Sf, Zf, Cf. set (n := (a + w) mod 256). set (n2 := (a + v) mod 256).
  generalize (bitn n 1), (bitn n 3), (bitn n2 1), (bitn n2 3), (bitn f 7), (bitn f 6), (bitn f 0).
  intros [] [] [] [] [] [] []; destruct x, y; reflexivity.
Qed.

Lemma times_dec full x : 0 < full -> 0 <= x < full -> times full ((x - 1) mod full) = (if times full x =? 1 then full else times full x - 1).
Proof.
  intros H1 H2. unfold times. destruct (x =? 0) eqn:E1.
  - assert (x = 0) by lia. subst. assert (HM : (0 - 1) mod full = full - 1) by (symmetry; apply (Z.mod_unique_pos _ _ (-1)); lia).
    rewrite HM. destruct (full =? 1) eqn:E3; [now assert (full - 1 =? 0 = true) as -> by lia|now assert (full - 1 =? 0 = false) as -> by lia].
  - rewrite Z.mod_small by lia. destruct (x =? 1) eqn:E3; [now assert (x - 1 =? 0 = true) as -> by lia|now assert (x - 1 =? 0 = false) as -> by lia].
Qed.

Lemma ldx_loop (dn : bool) : let d := dir dn in forall (j : nat) c b k, wf c -> halt c = false -> quiet Hs c ->
  mo b (pc c) = 0xED -> mo b (w16 (pc c + 1)) = (if dn then 0xB8 else 0xB0) ->
  let n := times 65536 (bc c) in Z.of_nat (S j) <= n ->
  (forall i, 0 <= i < Z.of_nat j -> nth_addr (de c) d i <> pc c /\ nth_addr (de c) d i <> w16 (pc c + 1)) ->
  exists c' b' k' (l : list (ev TS WB RB)), runl Hs (steps FL (S j) c) b k = Some (c', b', k', l) /\ wf c' /\
    same_rest c c' /\ bc c' = (bc c - Z.of_nat (S j)) mod 65536 /\
    hl c' = nth_addr (hl c) d (Z.of_nat (S j)) /\ de c' = nth_addr (de c) d (Z.of_nat (S j)) /\
    pc c' = (if Z.of_nat (S j) =? n then (pc c + 2) mod 65536 else pc c) /\
    get_flags c' = s_ldx (get_acc c) (copy j d (hl c) (de c) (mo b) (nth_addr (hl c) d (Z.of_nat j)))
                         (Z.of_nat (S j) =? n) (get_flags c) /\
    (forall a, mo b' a = copy (S j) d (hl c) (de c) (mo b) a) /\
    tsum (clocks l) = 21 * Z.of_nat (S j) - (if Z.of_nat (S j) =? n then 5 else 0).
Proof.
  intros d. induction j as [|j IH]; intros c b k Hw HH HQ H1 H2 n Hn HP;
    destruct (ldx_step false dn c b k Hw HH HQ H1 H2) as (c1 & b1 & k1 & l1 & E1 & W1 & S1 & B1 & HL1 & DE1 & PC1 & F1 & M1 & T1).
  - exists c1, b1, k1, l1. rewrite (steps_one _ _ _ _ _ _ _ _ _ 0 eq_refl E1). cbn [steps runl]. rewrite app_nil_r.
    assert (EZ : (bc c1 =? 0) = (Z.of_nat 1 =? n)).
    { destruct Hw as [ ]. unfold n, times, word in *. rewrite B1. destruct (bc c =? 0) eqn:?; lia. }
    rewrite EZ in *. split; [reflexivity|]. split; [exact W1|]. split; [exact S1|]. split; [exact B1|].
    split; [rewrite HL1; apply nth_1|]. split; [rewrite DE1; apply nth_1|]. split; [exact PC1|].
    split; [cbn [copy]; change (Z.of_nat 0) with 0; rewrite nth_0 by apply Hw; exact F1|].
    split; [exact M1|]. rewrite T1. destruct (_ =? n); reflexivity.
  - assert (EZ : (bc c1 =? 0) = false).
    { destruct Hw as [ ]. unfold n, times, word in *. rewrite B1. destruct (bc c =? 0) eqn:?; lia. }
    rewrite EZ in *.
    assert (N1 : times 65536 (bc c1) = n - 1).
    { rewrite B1. rewrite times_dec; [|lia|apply Hw]. fold n. destruct (n =? 1) eqn:?; [lia|reflexivity]. }
    destruct (HP 0) as [P0 P1]; [lia|]. rewrite nth_0 in P0, P1 by apply Hw.
    destruct (IH c1 b1 k1 W1 (sr_halt _ _ S1) (same_quiet _ _ S1 HQ)) as (c' & b' & k' & l & E & W & S & B & HL & DE & PC & F & M & TT).
    + rewrite PC1, M1. destruct (pc c =? de c) eqn:?; [lia|exact H1].
    + rewrite PC1, M1. destruct (w16 (pc c + 1) =? de c) eqn:?; [lia|exact H2].
    + rewrite N1. lia.
    + intros i Hi. rewrite PC1, DE1, nth_succ. apply HP. lia.
    + rewrite N1 in *. assert (EN : (Z.of_nat (Datatypes.S j) =? n - 1) = (Z.of_nat (Datatypes.S (Datatypes.S j)) =? n)) by lia. rewrite EN in *.
      exists c', b', k', (l1 ++ l). rewrite (steps_one _ _ _ _ _ _ _ _ _ _ eq_refl E1), E. split; [reflexivity|].
      split; [exact W|]. split; [exact (same_trans _ _ _ S1 S)|].
      split. { rewrite B, B1. lia. }
      split. { rewrite HL, HL1. fold d. rewrite nth_succ. f_equal. lia. }
      split. { rewrite DE, DE1. fold d. rewrite nth_succ. f_equal. lia. }
      split. { rewrite PC, PC1. reflexivity. }
      split.
      { rewrite F, F1, (sr_a _ _ S1), s_ldx_idem. f_equal. rewrite HL1, DE1. fold d. cbn [copy]. rewrite nth_succ.
        replace (Z.of_nat j + 1) with (Z.of_nat (Datatypes.S j)) by lia. apply copy_ext. exact M1. }
      split. { intros x. rewrite M, HL1, DE1. fold d. change (copy (Datatypes.S (Datatypes.S j)) d (hl c) (de c) (mo b) x) with
          (copy (Datatypes.S j) d ((hl c + d) mod 65536) ((de c + d) mod 65536) (fun a => if a =? de c then mo b (hl c) else mo b a) x).
        apply copy_ext. exact M1. }
      rewrite clocks_app', tsum_app, T1, TT. destruct (_ =? n); lia.
Qed.

Lemma s_cpx_idem a v w x y f : s_cpx a v x (s_cpx a w y f) = s_cpx a v x f.
Proof.
  unfold s_cpx. cbv zeta. generalize ((a - w) mod 256), ((a - v) mod 256), (a mod 16 <? w mod 16), (a mod 16 <? v mod 16). intros r r2 h h2.
  unfold flagbyte at 1 3. f_equal. unfold flagbyte, Cf.
  generalize (bitn r 7), (r =? 0), (bitn ((r - bz h) mod 256) 1), (bitn ((r - bz h) mod 256) 3), (bitn f 0).
  intros [] [] [] [] []; destruct y, h; reflexivity.
Qed.
Lemma cpx_loop (dn : bool) : let d := dir dn in forall (j : nat) c b k, wf c -> halt c = false -> quiet Hs c ->
  mo b (pc c) = 0xED -> mo b (w16 (pc c + 1)) = (if dn then 0xB9 else 0xB1) ->
  let n := times 65536 (bc c) in Z.of_nat (S j) <= n ->
  (forall i, 0 <= i < Z.of_nat j -> mo b (nth_addr (hl c) d i) <> get_acc c) ->
  let v := mo b (nth_addr (hl c) d (Z.of_nat j)) in
  let stop := (Z.of_nat (S j) =? n) || (get_acc c =? v) in
  exists c' b' k' (l : list (ev TS WB RB)), runl Hs (steps FL (S j) c) b k = Some (c', b', k', l) /\ wf c' /\
    same_rest c c' /\ de c' = de c /\ bc c' = (bc c - Z.of_nat (S j)) mod 65536 /\
    hl c' = nth_addr (hl c) d (Z.of_nat (S j)) /\
    pc c' = (if stop then (pc c + 2) mod 65536 else pc c) /\
    get_flags c' = s_cpx (get_acc c) v (Z.of_nat (S j) =? n) (get_flags c) /\
    (forall a, mo b' a = mo b a) /\
    tsum (clocks l) = 21 * Z.of_nat (S j) - (if stop then 5 else 0).
Proof.
  intros d. induction j as [|j IH]; intros c b k Hw HH HQ H1 H2 n Hn HP v stop;
    destruct (cpx_step false dn c b k Hw HH HQ H1 H2) as (c1 & b1 & k1 & l1 & E1 & W1 & S1 & DE1 & B1 & HL1 & PC1 & F1 & M1 & T1).
  - exists c1, b1, k1, l1. rewrite (steps_one _ _ _ _ _ _ _ _ _ 0 eq_refl E1). cbn [steps runl]. rewrite app_nil_r.
    assert (EZ : (bc c1 =? 0) = (Z.of_nat 1 =? n)).
    { destruct Hw as [ ]. unfold n, times, word in *. rewrite B1. destruct (bc c =? 0) eqn:?; lia. }
    rewrite EZ in *.
    assert (EV : v = mo b (hl c)) by (unfold v; change (Z.of_nat 0) with 0; rewrite nth_0 by apply Hw; reflexivity).
    rewrite <- EV in *. fold stop in PC1, T1.
    split; [reflexivity|]. split; [exact W1|]. split; [exact S1|]. split; [exact DE1|]. split; [exact B1|].
    split; [rewrite HL1; apply nth_1|]. split; [exact PC1|].
    split; [exact F1|].
    split; [exact M1|]. rewrite T1. destruct stop; reflexivity.
  - assert (EZ : (bc c1 =? 0) = false).
    { destruct Hw as [ ]. unfold n, times, word in *. rewrite B1. destruct (bc c =? 0) eqn:?; lia. }
    rewrite EZ in *.
    assert (N1 : times 65536 (bc c1) = n - 1).
    { rewrite B1. rewrite times_dec; [|lia|apply Hw]. fold n. destruct (n =? 1) eqn:?; [lia|reflexivity]. }
    assert (P0 := HP 0 ltac:(lia)). rewrite nth_0 in P0 by apply Hw.
    assert (EA : (get_acc c =? mo b (hl c)) = false) by lia. rewrite EA in *. cbn [orb] in PC1, T1.
    destruct (IH c1 b1 k1 W1 (sr_halt _ _ S1) (same_quiet _ _ S1 HQ)) as (c' & b' & k' & l & E & W & S & DE & B & HL & PC & F & M & TT).
    + rewrite PC1, M1. exact H1.
    + rewrite PC1, M1. exact H2.
    + rewrite N1. lia.
    + intros i Hi. rewrite M1, HL1, (sr_a _ _ S1). fold d. rewrite nth_succ. apply HP. lia.
    + rewrite N1 in *. assert (EN : (Z.of_nat (Datatypes.S j) =? n - 1) = (Z.of_nat (Datatypes.S (Datatypes.S j)) =? n)) by lia. rewrite EN in *.
      assert (EV : mo b1 (nth_addr (hl c1) d (Z.of_nat j)) = v).
      { rewrite M1, HL1. fold d. rewrite nth_succ. unfold v. do 2 f_equal. lia. }
      rewrite EV, (sr_a _ _ S1) in *. fold stop in PC, TT.
      exists c', b', k', (l1 ++ l). rewrite (steps_one _ _ _ _ _ _ _ _ _ _ eq_refl E1), E. split; [reflexivity|].
      split; [exact W|]. split; [exact (same_trans _ _ _ S1 S)|]. split; [congruence|].
      split. { rewrite B, B1. lia. }
      split. { rewrite HL, HL1. fold d. rewrite nth_succ. f_equal. lia. }
      split. { rewrite PC, PC1. reflexivity. }
      split. { rewrite F, F1, s_cpx_idem. reflexivity. }
      split. { intros x. rewrite M, M1. reflexivity. }
      rewrite clocks_app', tsum_app, T1, TT. destruct stop; lia.
Qed.

Lemma b_dec c c1 j : word (bc c) -> bc c1 = (bc c - 256) mod 65536 -> 1 <= j <= times 256 (bc c / 256) ->
  (bc c1 / 256 =? 0) = (times 256 (bc c / 256) =? 1) /\ (1 < times 256 (bc c / 256) -> times 256 (bc c1 / 256) = times 256 (bc c / 256) - 1).
Proof.
  intros HW E HJ. unfold times, word in *. rewrite E. destruct (bc c / 256 =? 0) eqn:EB.
  - assert (EH : (bc c - 256) mod 65536 / 256 = 255) by lia. rewrite EH. now split.
  - split; [lia|]. intros HT. destruct ((bc c - 256) mod 65536 / 256 =? 0) eqn:?; lia.
Qed.
Lemma djnz_loop : forall (j : nat) c b k, wf c -> halt c = false -> quiet Hs c ->
  mo b (pc c) = 0x10 -> mo b (w16 (pc c + 1)) = 0xFE ->
  let n := times 256 (bc c / 256) in Z.of_nat (S j) <= n ->
  exists c' b' k' (l : list (ev TS WB RB)), runl Hs (steps FL (S j) c) b k = Some (c', b', k', l) /\ wf c' /\
    same_rest c c' /\ hl c' = hl c /\ de c' = de c /\ get_flags c' = get_flags c /\
    bc c' = (bc c - 256 * Z.of_nat (S j)) mod 65536 /\
    pc c' = (if Z.of_nat (S j) =? n then (pc c + 2) mod 65536 else pc c) /\
    (forall a, mo b' a = mo b a) /\
    tsum (clocks l) = 13 * Z.of_nat (S j) - (if Z.of_nat (S j) =? n then 5 else 0).
Proof.
  induction j as [|j IH]; intros c b k Hw HH HQ H1 H2 n Hn;
    destruct (djnz_step false c b k Hw HH HQ H1 H2) as (c1 & b1 & k1 & l1 & E1 & W1 & S1 & HL1 & DE1 & F1 & B1 & PC1 & M1 & T1);
    destruct (b_dec c c1 1 (wf_bc _ Hw) B1 ltac:(lia)) as [EZ N1]; fold n in EZ, N1; rewrite EZ in *.
  - exists c1, b1, k1, l1. rewrite (steps_one _ _ _ _ _ _ _ _ _ 0 eq_refl E1). cbn [steps runl]. rewrite app_nil_r.
    rewrite (Z.eqb_sym _ n).
    split; [reflexivity|]. split; [exact W1|]. split; [exact S1|]. split; [exact HL1|]. split; [exact DE1|]. split; [exact F1|].
    split; [exact B1|]. split; [exact PC1|]. split; [exact M1|]. rewrite T1. change (Z.of_nat 1) with 1. destruct (n =? 1); reflexivity.
  - assert (n =? 1 = false) as EN1 by lia. rewrite EN1 in *. specialize (N1 ltac:(lia)).
    destruct (IH c1 b1 k1 W1 (sr_halt _ _ S1) (same_quiet _ _ S1 HQ)) as (c' & b' & k' & l & E & W & S & HL & DE & F & B & PC & M & TT).
    + rewrite PC1, M1. exact H1.
    + rewrite PC1, M1. exact H2.
    + rewrite N1. lia.
    + rewrite N1 in *. assert (EN : (Z.of_nat (Datatypes.S j) =? n - 1) = (Z.of_nat (Datatypes.S (Datatypes.S j)) =? n)) by lia. rewrite EN in *.
      exists c', b', k', (l1 ++ l). rewrite (steps_one _ _ _ _ _ _ _ _ _ _ eq_refl E1), E. split; [reflexivity|].
      split; [exact W|]. split; [exact (same_trans _ _ _ S1 S)|]. split; [congruence|]. split; [congruence|]. split; [congruence|].
      split. { rewrite B, B1. lia. }
      split. { rewrite PC, PC1. reflexivity. }
      split. { intros x. rewrite M, M1. reflexivity. }
      rewrite clocks_app', tsum_app, T1, TT. destruct (_ =? n); lia.
Qed.

Lemma inx_loop (dn : bool) : let d := dir dn in forall (j : nat) c b k, wf c -> halt c = false -> quiet Hs c ->
  mo b (pc c) = 0xED -> mo b (w16 (pc c + 1)) = (if dn then 0xBA else 0xB2) ->
  let n := times 256 (bc c / 256) in Z.of_nat (S j) <= n ->
  (forall i, 0 <= i < Z.of_nat j -> nth_addr (hl c) d i <> pc c /\ nth_addr (hl c) d i <> w16 (pc c + 1)) ->
  exists c' b' k' (l : list (ev TS WB RB)) vs, runl Hs (steps FL (S j) c) b k = Some (c', b', k', l) /\ wf c' /\
    same_rest c c' /\ de c' = de c /\ length vs = S j /\ Forall isbyte (map fst vs) /\
    data (buses l) = in_seq vs (bc c) (hl c) d /\
    bc c' = (bc c - 256 * Z.of_nat (S j)) mod 65536 /\
    hl c' = nth_addr (hl c) d (Z.of_nat (S j)) /\
    pc c' = (if Z.of_nat (S j) =? n then (pc c + 2) mod 65536 else pc c) /\
    get_flags c' = s_iox (fst (last vs (0, None))) (bc c' / 256) ((bc c + d) mod 256) /\
    (forall a, mo b' a = store_list (map fst vs) d (hl c) (mo b) a) /\
    tsum (clocks l) = 21 * Z.of_nat (S j) - (if Z.of_nat (S j) =? n then 5 else 0) + waits (data (buses l)).
Proof.
  intros d. induction j as [|j IH]; intros c b k Hw HH HQ H1 H2 n Hn HP;
    destruct (inx_step false dn c b k Hw HH HQ H1 H2) as (c1 & b1 & k1 & l1 & v & w & E1 & W1 & S1 & V1 & D1 & DE1 & B1 & HL1 & PC1 & F1 & M1 & T1);
    destruct (b_dec c c1 1 (wf_bc _ Hw) B1 ltac:(lia)) as [EZ N1]; fold n in EZ, N1; rewrite EZ in *; fold d in HL1, F1.
  - exists c1, b1, k1, l1, [(v, w)]. rewrite (steps_one _ _ _ _ _ _ _ _ _ 0 eq_refl E1). cbn [steps runl]. rewrite app_nil_r.
    rewrite (Z.eqb_sym _ n).
    split; [reflexivity|]. split; [exact W1|]. split; [exact S1|]. split; [exact DE1|]. split; [reflexivity|].
    split; [repeat constructor; apply V1|]. split; [exact D1|].
    split; [exact B1|]. split; [rewrite HL1; apply nth_1|]. split; [exact PC1|]. split; [exact F1|].
    split; [exact M1|]. rewrite T1. change (Z.of_nat 1) with 1. destruct (n =? 1); reflexivity.
  - assert (n =? 1 = false) as EN1 by lia. rewrite EN1 in *. specialize (N1 ltac:(lia)).
    destruct (HP 0) as [P0 P1]; [lia|]. rewrite nth_0 in P0, P1 by apply Hw.
    destruct (IH c1 b1 k1 W1 (sr_halt _ _ S1) (same_quiet _ _ S1 HQ)) as (c' & b' & k' & l & vs & E & W & S & DE & LE & FA & DA & B & HL & PC & F & M & TT).
    + rewrite PC1, M1. destruct (pc c =? hl c) eqn:?; [lia|exact H1].
    + rewrite PC1, M1. destruct (w16 (pc c + 1) =? hl c) eqn:?; [lia|exact H2].
    + rewrite N1. lia.
    + intros i Hi. rewrite PC1, HL1, nth_succ. apply HP. lia.
    + rewrite N1 in *. assert (EN : (Z.of_nat (Datatypes.S j) =? n - 1) = (Z.of_nat (Datatypes.S (Datatypes.S j)) =? n)) by lia. rewrite EN in *.
      exists c', b', k', (l1 ++ l), ((v, w) :: vs). rewrite (steps_one _ _ _ _ _ _ _ _ _ _ eq_refl E1), E. split; [reflexivity|].
      split; [exact W|]. split; [exact (same_trans _ _ _ S1 S)|]. split; [congruence|]. split; [cbn [length]; congruence|].
      split; [constructor; assumption|].
      split. { rewrite buses_app', data_app, D1, DA, B1, HL1. reflexivity. }
      split. { rewrite B, B1. lia. }
      split. { rewrite HL, HL1, nth_succ. f_equal. lia. }
      split. { rewrite PC, PC1. reflexivity. }
      split. { rewrite F, B1. destruct vs as [|x vs]; [discriminate LE|]. f_equal. lia. }
      split. { intros x. rewrite M, HL1. cbn [map fst store_list]. apply store_ext. exact M1. }
      rewrite clocks_app', tsum_app, buses_app', data_app, waits_app, T1, TT. destruct (_ =? n); lia.
Qed.
Lemma out_ext l d : forall bc0 a m m', (forall x, m x = m' x) -> @out_seq WB RB l bc0 a d m = out_seq l bc0 a d m'.
Proof. induction l as [|[r w] l IH]; intros bc0 a m m' HE; cbn [out_seq]; [reflexivity|]. rewrite HE, (IH _ _ m m' HE). reflexivity. Qed.
Lemma outx_loop (dn : bool) : let d := dir dn in forall (j : nat) c b k, wf c -> halt c = false -> quiet Hs c ->
  mo b (pc c) = 0xED -> mo b (w16 (pc c + 1)) = (if dn then 0xBB else 0xB3) ->
  let n := times 256 (bc c / 256) in Z.of_nat (S j) <= n ->
  exists c' b' k' (l : list (ev TS WB RB)) rs, runl Hs (steps FL (S j) c) b k = Some (c', b', k', l) /\ wf c' /\
    same_rest c c' /\ de c' = de c /\ length rs = S j /\
    data (buses l) = out_seq rs (bc c) (hl c) d (mo b) /\
    bc c' = (bc c - 256 * Z.of_nat (S j)) mod 65536 /\
    hl c' = nth_addr (hl c) d (Z.of_nat (S j)) /\
    pc c' = (if Z.of_nat (S j) =? n then (pc c + 2) mod 65536 else pc c) /\
    get_flags c' = s_iox (mo b (nth_addr (hl c) d (Z.of_nat j))) (bc c' / 256) (hl c' mod 256) /\
    (forall a, mo b' a = mo b a) /\
    tsum (clocks l) = 21 * Z.of_nat (S j) - (if Z.of_nat (S j) =? n then 5 else 0) + waits (data (buses l)).
Proof.
  intros d. induction j as [|j IH]; intros c b k Hw HH HQ H1 H2 n Hn;
    destruct (outx_step false dn c b k Hw HH HQ H1 H2) as (c1 & b1 & k1 & l1 & r & w & E1 & W1 & S1 & D1 & DE1 & B1 & HL1 & PC1 & F1 & M1 & T1);
    destruct (b_dec c c1 1 (wf_bc _ Hw) B1 ltac:(lia)) as [EZ N1]; fold n in EZ, N1; rewrite EZ in *; fold d in HL1, F1.
  - exists c1, b1, k1, l1, [(r, w)]. rewrite (steps_one _ _ _ _ _ _ _ _ _ 0 eq_refl E1). cbn [steps runl]. rewrite app_nil_r.
    rewrite (Z.eqb_sym _ n).
    split; [reflexivity|]. split; [exact W1|]. split; [exact S1|]. split; [exact DE1|]. split; [reflexivity|].
    split; [exact D1|].
    split; [exact B1|]. split; [rewrite HL1; apply nth_1|]. split; [exact PC1|].
    split; [change (Z.of_nat 0) with 0; rewrite nth_0 by apply Hw; exact F1|].
    split; [exact M1|]. rewrite T1. change (Z.of_nat 1) with 1. destruct (n =? 1); reflexivity.
  - assert (n =? 1 = false) as EN1 by lia. rewrite EN1 in *. specialize (N1 ltac:(lia)).
    destruct (IH c1 b1 k1 W1 (sr_halt _ _ S1) (same_quiet _ _ S1 HQ)) as (c' & b' & k' & l & rs & E & W & S & DE & LE & DA & B & HL & PC & F & M & TT).
    + rewrite PC1, M1. exact H1.
    + rewrite PC1, M1. exact H2.
    + rewrite N1. lia.
    + rewrite N1 in *. assert (EN : (Z.of_nat (Datatypes.S j) =? n - 1) = (Z.of_nat (Datatypes.S (Datatypes.S j)) =? n)) by lia. rewrite EN in *.
      exists c', b', k', (l1 ++ l), ((r, w) :: rs). rewrite (steps_one _ _ _ _ _ _ _ _ _ _ eq_refl E1), E. split; [reflexivity|].
      split; [exact W|]. split; [exact (same_trans _ _ _ S1 S)|]. split; [congruence|]. split; [cbn [length]; congruence|].
      split. { rewrite buses_app', data_app, D1, DA, B1, HL1. cbn [out_seq app]. rewrite (out_ext rs d _ _ _ _ M1). reflexivity. }
      split. { rewrite B, B1. lia. }
      split. { rewrite HL, HL1, nth_succ. f_equal. lia. }
      split. { rewrite PC, PC1. reflexivity. }
      split. { rewrite F, M1, HL1, nth_succ. do 3 f_equal. lia. }
      split. { intros x. rewrite M, M1. reflexivity. }
      rewrite clocks_app', tsum_app, buses_app', data_app, waits_app, T1, TT. destruct (_ =? n); lia.
Qed.
End Block.

(** ** Consequences on memories *)
Lemma copy_snoc n d : forall s t m a, word t ->  word s -> 
  copy (S n) d s t m a = if a =? nth_addr t d (Z.of_nat n) then copy n d s t m (nth_addr s d (Z.of_nat n)) else copy n d s t m a.
Proof.
  induction n as [|n IH]; intros s t m a Ht Hs.
  - cbn [copy]. change (Z.of_nat 0) with 0. now rewrite !nth_0.
  - change (copy (S (S n)) d s t m a) with (copy (S n) d ((s + d) mod 65536) ((t + d) mod 65536) (fun a => if a =? t then m s else m a) a).
    rewrite IH by (unfold word; lia). rewrite !nth_succ. replace (Z.of_nat n + 1) with (Z.of_nat (S n)) by lia. reflexivity.
Qed.
Lemma copy_other n d s t m a : word s -> word t -> (forall i, 0 <= i < Z.of_nat n -> nth_addr t d i <> a) -> copy n d s t m a = m a.
Proof.
  intros Hs Ht. induction n as [|n IH]; intros HN; [reflexivity|]. rewrite copy_snoc by assumption.
  assert (H1 := HN (Z.of_nat n) ltac:(lia)). destruct (a =? _) eqn:?; [lia|]. apply IH. intros i Hi. apply HN. lia.
Qed.
Lemma nth_distinct a (dn : bool) i j : 0 <= i < 65536 -> 0 <= j < 65536 -> nth_addr a (dir dn) i = nth_addr a (dir dn) j -> i = j.
Proof. unfold nth_addr, dir. destruct dn; lia. Qed.
Lemma copy_move n (dn : bool) s t m : let d := dir dn in word s -> word t -> Z.of_nat n <= 65536 ->
  forall i, 0 <= i < Z.of_nat n -> (forall i', 0 <= i' < i -> nth_addr t d i' <> nth_addr s d i) ->
  copy n d s t m (nth_addr t d i) = m (nth_addr s d i).
Proof.
  intros d Hs Ht. induction n as [|n IH]; intros HN i Hi HO; [lia|]. rewrite copy_snoc by assumption.
  destruct (nth_addr t d i =? nth_addr t d (Z.of_nat n)) eqn:E.
  - assert (i = Z.of_nat n) as -> by (apply (nth_distinct t dn); [lia|lia|unfold d in E; lia]). apply copy_other; assumption.
  - assert (i <> Z.of_nat n) by (intros ->; lia). apply IH; [lia|lia|exact HO].
Qed.
Lemma copy_fill n (dn : bool) s m : let d := dir dn in word s ->
  forall i, 0 <= i <= Z.of_nat n -> copy n d s ((s + d) mod 65536) m (nth_addr s d i) = m s.
Proof.
  intros d Hs. induction n as [|n IH]; intros i Hi.
  - assert (i = 0) as -> by lia. cbn [copy]. now rewrite nth_0.
  - rewrite copy_snoc by (unfold word in *; lia). rewrite nth_succ.
    destruct (nth_addr s d i =? nth_addr s d (Z.of_nat n + 1)) eqn:E; [apply IH; lia|].
    apply IH. assert (i <> Z.of_nat n + 1) by (intros ->; lia). lia.
Qed.
Lemma store_nth l (dn : bool) t m : let d := dir dn in word t -> Z.of_nat (length l) <= 65536 ->
  (forall i, (i < length l)%nat -> store_list l d t m (nth_addr t d (Z.of_nat i)) = nth i l 0) /\
  (forall a, (forall i, (i < length l)%nat -> nth_addr t d (Z.of_nat i) <> a) -> store_list l d t m a = m a).
Proof.
  intros d. revert t m. induction l as [|v l IH]; intros t m Ht HL; [split; [intros i Hi; cbn in Hi; lia|reflexivity]|].
  cbn [length] in *. destruct (IH ((t + d) mod 65536) (fun a => if a =? t then v else m a) ltac:(unfold word; lia) ltac:(lia)) as [I1 I2].
  cbn [store_list]. split.
  - intros [|i] Hi.
    + cbn [nth]. change (Z.of_nat 0) with 0. rewrite nth_0 by exact Ht. rewrite I2; [now rewrite Z.eqb_refl|].
      intros i Hi2. rewrite nth_succ. rewrite <- (nth_0 t d Ht) at 2. intros HE. apply (nth_distinct t dn) in HE; lia.
    + cbn [nth]. rewrite <- (I1 i ltac:(lia)). rewrite nth_succ. do 2 f_equal. lia.
  - intros a HA. rewrite I2.
    + assert (H0 := HA 0%nat ltac:(lia)). change (Z.of_nat 0) with 0 in H0. rewrite nth_0 in H0 by exact Ht.
      destruct (a =? t) eqn:?; [lia|reflexivity].
    + intros i Hi. rewrite nth_succ. replace (Z.of_nat i + 1) with (Z.of_nat (S i)) by lia. apply HA. lia.
Qed.
Lemma first_match (P : Z -> bool) n : 1 <= n -> exists j : nat, Z.of_nat (S j) <= n /\
  (forall i, 0 <= i < Z.of_nat j -> P i = false) /\ (Z.of_nat (S j) = n \/ P (Z.of_nat j) = true).
Proof.
  intros Hn. assert (G : forall k : nat, (1 <= k)%nat -> exists j : nat, (S j <= k)%nat /\
    (forall i, 0 <= i < Z.of_nat j -> P i = false) /\ (S j = k \/ P (Z.of_nat j) = true)).
  { induction k as [|k IH]; [lia|]. intros _. destruct k as [|k].
    - exists 0%nat. split; [lia|]. split; [lia|now left].
    - destruct (IH ltac:(lia)) as (j & H1 & H2 & H3). destruct H3 as [H3|H3].
      + destruct (P (Z.of_nat j)) eqn:EP.
        * exists j. split; [lia|]. split; [exact H2|now right].
        * exists (S j). split; [lia|]. split; [|left; lia]. intros i Hi. destruct (Z.eq_dec i (Z.of_nat j)) as [->|]; [exact EP|]. apply H2. lia.
      + exists j. split; [lia|]. split; [exact H2|now right]. }
  destruct (G (Z.to_nat n) ltac:(lia)) as (j & H1 & H2 & H3). exists j. split; [lia|]. split; [exact H2|]. destruct H3; [left; lia|now right].
Qed.
Lemma s_cpx_flags a v x f : byte a -> byte v -> Zf (s_cpx a v x f) = (a =? v) /\ bitn (s_cpx a v x f) 2 = negb x /\ Cf (s_cpx a v x f) = Cf f.
Proof.
  intros Ha Hv. unfold s_cpx. cbv zeta. replace ((a - v) mod 256 =? 0) with (a =? v) by (unfold byte in *; lia).
  generalize ((a - v) mod 256), (a mod 16 <? v mod 16). intros r h. unfold flagbyte, Cf, Zf.
  generalize (bitn r 7), (a =? v), (bitn ((r - bz h) mod 256) 1), (bitn ((r - bz h) mod 256) 3), (bitn f 0).
  intros [] [] [] [] []; destruct x, h; repeat split.
Qed.
Lemma s_iox_z v m : Zf (s_iox v 0 m) = true.
Proof.
  unfold s_iox, flagbyte, Zf. change (bitn 0 7) with false. change (bitn 0 5) with false. change (bitn 0 3) with false.
  change (0 =? 0) with true. generalize (256 <=? v + m), (xorb (evenparity ((v + m) mod 8)) (negb (evenparity 0))), (bitn v 7).
  intros [] [] []; reflexivity.
Qed.

(** ** To completion *)
Section Complete.
Context {Q T TS WB RB BS CK : Type}.
Variable FL : Flavour Q.
Variable ch : chip T.
Variable absq : Q -> T.
Hypothesis OK : chip_ok FL ch absq.
Variable Hs : host TS WB RB BS CK.
Variable mo : BS -> mem.
Hypothesis HR : ram_host Hs mo.
Implicit Types c : cpu Q.
Lemma times_word full x : 0 < full -> 0 <= x < full -> 1 <= times full x <= full /\ (x - times full x) mod full = 0.
Proof.
  intros H1 H2. unfold times. destruct (x =? 0) eqn:E; split; try lia.
  - assert (x = 0) as -> by lia. symmetry. apply (Z.mod_unique_pos _ _ (-1)); lia.
  - rewrite Z.sub_diag. apply Z.mod_0_l. lia.
Qed.
Lemma ram_byte b a : byte (mo b a).
Proof. apply (rh_byte _ _ HR). Qed.
Lemma ldx_complete (dn : bool) c b k : let d := dir dn in let n := times 65536 (bc c) in
  wf c -> halt c = false -> quiet Hs c ->
  mo b (pc c) = 0xED -> mo b (w16 (pc c + 1)) = (if dn then 0xB8 else 0xB0) ->
  (forall i, 0 <= i < n - 1 -> nth_addr (de c) d i <> pc c /\ nth_addr (de c) d i <> (pc c + 1) mod 65536) ->
  exists c' b' k' l, runl Hs (steps FL (Z.to_nat n) c) b k = Some (c', b', k', l) /\ same_rest c c' /\
    bc c' = 0 /\ hl c' = nth_addr (hl c) d n /\ de c' = nth_addr (de c) d n /\ pc c' = (pc c + 2) mod 65536 /\
    (forall a, mo b' a = copy (Z.to_nat n) d (hl c) (de c) (mo b) a) /\ tsum (clocks l) = 21 * (n - 1) + 16.
Proof.
  intros d n Hw HH HQ H1 H2 HP.
  destruct (times_word 65536 (bc c) eq_refl (wf_bc _ Hw)) as [N1 N2]. fold n in N1, N2.
  destruct (Z.to_nat n) as [|j] eqn:EJ; [lia|]. assert (EN : Z.of_nat (S j) = n) by lia.
  destruct (ldx_loop FL ch absq OK Hs mo HR dn j c b k Hw HH HQ H1 H2) as (c' & b' & k' & l & E & W & S & B & HL & DE & PC & F & M & TT).
  { fold n. lia. } { intros i Hi. apply HP. lia. }
  fold n in PC, TT. rewrite EN in *. rewrite Z.eqb_refl in *.
  exists c', b', k', l. rewrite B, N2. split; [exact E|]. split; [exact S|]. split; [reflexivity|]. split; [exact HL|]. split; [exact DE|].
  split; [exact PC|]. split; [exact M|]. lia.
Qed.
Lemma cpx_complete (dn : bool) c b k : let d := dir dn in let n := times 65536 (bc c) in
  wf c -> halt c = false -> quiet Hs c ->
  mo b (pc c) = 0xED -> mo b (w16 (pc c + 1)) = (if dn then 0xB9 else 0xB1) ->
  exists j c' b' k' l, let i := Z.of_nat j in runl Hs (steps FL j c) b k = Some (c', b', k', l) /\ same_rest c c' /\
    1 <= i <= n /\ (forall x, 0 <= x < i - 1 -> mo b (nth_addr (hl c) d x) <> get_acc c) /\
    (i = n \/ mo b (nth_addr (hl c) d (i - 1)) = get_acc c) /\
    hl c' = nth_addr (hl c) d i /\ bc c' = n - i /\ de c' = de c /\ pc c' = (pc c + 2) mod 65536 /\
    Zf (get_flags c') = (get_acc c =? mo b (nth_addr (hl c) d (i - 1))) /\ Pf (get_flags c') = negb (bc c' =? 0) /\
    Cf (get_flags c') = Cf (get_flags c) /\
    (forall a, mo b' a = mo b a) /\ tsum (clocks l) = 21 * (i - 1) + 16.
Proof.
  intros d n Hw HH HQ H1 H2.
  destruct (times_word 65536 (bc c) eq_refl (wf_bc _ Hw)) as [N1 N2]. fold n in N1, N2.
  destruct (first_match (fun i => get_acc c =? mo b (nth_addr (hl c) d i)) n ltac:(lia)) as (j & J1 & J2 & J3).
  destruct (cpx_loop FL ch absq OK Hs mo HR dn j c b k Hw HH HQ H1 H2) as (c' & b' & k' & l & E & W & S & DE & B & HL & PC & F & M & TT).
  { exact J1. } { intros i Hi. specialize (J2 i Hi). cbv beta in J2. fold d. lia. }
  fold n d in PC, TT, F, HL. exists (Datatypes.S j), c', b', k', l. cbv zeta.
  assert (ES : (Z.of_nat (Datatypes.S j) =? n) || (get_acc c =? mo b (nth_addr (hl c) d (Z.of_nat j))) = true).
  { destruct J3 as [J3|J3]; [rewrite (proj2 (Z.eqb_eq _ _) J3); reflexivity|]. cbv beta in J3. rewrite J3. now rewrite Bool.orb_true_r. }
  rewrite ES in *. replace (Z.of_nat (Datatypes.S j) - 1) with (Z.of_nat j) by lia.
  assert (EB : bc c' = n - Z.of_nat (Datatypes.S j)).
  { rewrite B. destruct Hw as [ ]. unfold n, times, word in *. destruct (bc c =? 0) eqn:?; lia. }
  destruct (s_cpx_flags (get_acc c) (mo b (nth_addr (hl c) d (Z.of_nat j))) (Z.of_nat (Datatypes.S j) =? n) (get_flags c)) as (F1 & F2 & F3).
  { apply wf_get_acc, Hw. } { apply ram_byte. }
  rewrite <- F in F1, F2, F3.
  split; [exact E|]. split; [exact S|]. split; [lia|]. split; [intros x Hx; specialize (J2 x Hx); cbv beta in J2; lia|].
  split. { destruct J3 as [J3|J3]; [now left|right]. cbv beta in J3. lia. }
  split; [exact HL|]. split; [exact EB|]. split; [exact DE|]. split; [exact PC|]. split; [exact F1|].
  split. { unfold Pf. rewrite F2, EB. f_equal. lia. }
  split; [exact F3|]. split; [exact M|]. lia.
Qed.
Lemma djnz_complete c b k : let n := times 256 (bc c / 256) in wf c -> halt c = false -> quiet Hs c ->
  mo b (pc c) = 0x10 -> mo b (w16 (pc c + 1)) = 0xFE ->
  exists c' b' k' l, runl Hs (steps FL (Z.to_nat n) c) b k = Some (c', b', k', l) /\ same_rest c c' /\
    hl c' = hl c /\ de c' = de c /\ get_flags c' = get_flags c /\ bc c' = bc c mod 256 /\ pc c' = (pc c + 2) mod 65536 /\
    (forall a, mo b' a = mo b a) /\ tsum (clocks l) = 13 * (n - 1) + 8.
Proof.
  intros n Hw HH HQ H1 H2. assert (WB' := wf_bc _ Hw). unfold word in WB'.
  assert (N1 : 1 <= n <= 256) by (unfold n, times; destruct (_ =? 0) eqn:?; lia).
  destruct (Z.to_nat n) as [|j] eqn:EJ; [lia|]. assert (EN : Z.of_nat (S j) = n) by lia.
  destruct (djnz_loop FL ch absq OK Hs mo HR j c b k Hw HH HQ H1 H2) as (c' & b' & k' & l & E & W & S & HL & DE & F & B & PC & M & TT).
  { fold n. lia. }
  fold n in PC, TT. rewrite EN in *. rewrite Z.eqb_refl in *.
  exists c', b', k', l. split; [exact E|]. split; [exact S|]. split; [exact HL|]. split; [exact DE|]. split; [exact F|].
  split. { rewrite B. unfold n, times. destruct (_ =? 0) eqn:?; lia. }
  split; [exact PC|]. split; [exact M|]. lia.
Qed.
Lemma inx_complete (dn : bool) c b k : let d := dir dn in let n := times 256 (bc c / 256) in
  wf c -> halt c = false -> quiet Hs c ->
  mo b (pc c) = 0xED -> mo b (w16 (pc c + 1)) = (if dn then 0xBA else 0xB2) ->
  (forall i, 0 <= i < n - 1 -> nth_addr (hl c) d i <> pc c /\ nth_addr (hl c) d i <> (pc c + 1) mod 65536) ->
  exists c' b' k' l vs, runl Hs (steps FL (Z.to_nat n) c) b k = Some (c', b', k', l) /\ same_rest c c' /\
    Z.of_nat (length vs) = n /\ data (buses l) = in_seq vs (bc c) (hl c) d /\
    (forall i, (i < length vs)%nat -> mo b' (nth_addr (hl c) d (Z.of_nat i)) = nth i (map fst vs) 0) /\
    (forall a, (forall i, (i < length vs)%nat -> nth_addr (hl c) d (Z.of_nat i) <> a) -> mo b' a = mo b a) /\
    de c' = de c /\ bc c' = bc c mod 256 /\ hl c' = nth_addr (hl c) d n /\ pc c' = (pc c + 2) mod 65536 /\
    Zf (get_flags c') = true /\ tsum (clocks l) = 21 * (n - 1) + 16 + waits (buses l).
Proof.
  intros d n Hw HH HQ H1 H2 HP. assert (WB' := wf_bc _ Hw). unfold word in WB'.
  assert (N1 : 1 <= n <= 256) by (unfold n, times; destruct (_ =? 0) eqn:?; lia).
  destruct (Z.to_nat n) as [|j] eqn:EJ; [lia|]. assert (EN : Z.of_nat (S j) = n) by lia.
  destruct (inx_loop FL ch absq OK Hs mo HR dn j c b k Hw HH HQ H1 H2) as
    (c' & b' & k' & l & vs & E & W & S & DE & LE & FA & DA & B & HL & PC & F & M & TT).
  { fold n. lia. } { intros i Hi. apply HP. lia. }
  fold n d in PC, TT, HL, DA, M. rewrite EN in *. rewrite Z.eqb_refl in *.
  assert (EB : bc c' = bc c mod 256). { rewrite B. unfold n, times. destruct (_ =? 0) eqn:?; lia. }
  destruct (store_nth (map fst vs) dn (hl c) (mo b) (wf_hl _ Hw) ltac:(rewrite map_length; lia)) as [I1 I2].
  rewrite map_length in I1, I2.
  exists c', b', k', l, vs. split; [exact E|]. split; [exact S|]. split; [rewrite LE; exact EN|]. split; [exact DA|].
  split. { intros i Hi. rewrite M. now apply I1. }
  split. { intros a Ha. rewrite M. now apply I2. }
  split; [exact DE|]. split; [exact EB|]. split; [exact HL|]. split; [exact PC|].
  split. { rewrite F. replace (bc c' / 256) with 0 by lia. apply s_iox_z. }
  rewrite TT, waits_data. lia.
Qed.
Lemma outx_complete (dn : bool) c b k : let d := dir dn in let n := times 256 (bc c / 256) in
  wf c -> halt c = false -> quiet Hs c ->
  mo b (pc c) = 0xED -> mo b (w16 (pc c + 1)) = (if dn then 0xBB else 0xB3) ->
  exists c' b' k' l rs, runl Hs (steps FL (Z.to_nat n) c) b k = Some (c', b', k', l) /\ same_rest c c' /\
    Z.of_nat (length rs) = n /\ data (buses l) = out_seq rs (bc c) (hl c) d (mo b) /\
    (forall a, mo b' a = mo b a) /\
    de c' = de c /\ bc c' = bc c mod 256 /\ hl c' = nth_addr (hl c) d n /\ pc c' = (pc c + 2) mod 65536 /\
    Zf (get_flags c') = true /\ tsum (clocks l) = 21 * (n - 1) + 16 + waits (buses l).
Proof.
  intros d n Hw HH HQ H1 H2. assert (WB' := wf_bc _ Hw). unfold word in WB'.
  assert (N1 : 1 <= n <= 256) by (unfold n, times; destruct (_ =? 0) eqn:?; lia).
  destruct (Z.to_nat n) as [|j] eqn:EJ; [lia|]. assert (EN : Z.of_nat (S j) = n) by lia.
  destruct (outx_loop FL ch absq OK Hs mo HR dn j c b k Hw HH HQ H1 H2) as
    (c' & b' & k' & l & rs & E & W & S & DE & LE & DA & B & HL & PC & F & M & TT).
  { fold n. lia. }
  fold n d in PC, TT, HL, DA, M. rewrite EN in *. rewrite Z.eqb_refl in *.
  assert (EB : bc c' = bc c mod 256). { rewrite B. unfold n, times. destruct (_ =? 0) eqn:?; lia. }
  exists c', b', k', l, rs. split; [exact E|]. split; [exact S|]. split; [rewrite LE; exact EN|]. split; [exact DA|].
  split; [exact M|].
  split; [exact DE|]. split; [exact EB|]. split; [exact HL|]. split; [exact PC|].
  split. { rewrite F. replace (bc c' / 256) with 0 by lia. apply s_iox_z. }
  rewrite TT, waits_data. lia.
Qed.
End Complete.
