(** Running the kernel of the example computer symbolically: states and tactics. *)
From Coq Require Import ZArith Bool List Lia.
From Verif Require Import Base Parse Clock RalMemory RalBus SpecRal SpecAlu SpecState SpecIsa AluProofs IsaRun Trace Asm RomImage SpecRom RomHoare.
Import ListNotations.
Open Scope Z_scope.

(** What programs do not look at. *)
Record junk3 (T : Type) := mkJunk3 { nWZ : Z; nR : Z; nQ : T }.
Arguments mkJunk3 {T}. Arguments nWZ {T}. Arguments nR {T}. Arguments nQ {T}.
(** Interrupts: I, the mode, IFF1, IFF2, the delay after EI. *)
Record ctl := mkCtl { kI : Z; kIM : InterruptMode; k1 : bool; k2 : bool; kE : bool }.
Definition Sr {T} (pc sp a f bc de hl : Z) (x : rest) (k : ctl) (j : junk3 T) : arch T :=
  mkArch a f bc de hl (rAF x) (rBC x) (rDE x) (rHL x) (rIX x) (rIY x) sp pc (nWZ j) (kI k) (nR j) (kIM k) (k1 k) (k2 k) false (kE k) None (nQ j).
(** Halted. *)
Definition Hr {T} (pc sp a f bc de hl : Z) (x : rest) (k : ctl) (j : junk3 T) : arch T :=
  mkArch a f bc de hl (rAF x) (rBC x) (rDE x) (rHL x) (rIX x) (rIY x) sp pc (nWZ j) (kI k) (nR j) (kIM k) (k1 k) (k2 k) true (kE k) None (nQ j).

Section Asm.
Context {T WB RB : Type}.
Variable ch : SpecIsa.chip T.
Variable q : bool.
Variable top : Z.
Variable P : arch T -> mem -> list io -> Prop.
Notation goes := (goes (WB:=WB) (RB:=RB) ch q top P).
Notation tree := (cyc WB RB (arch T * outcome WB RB)).
Definition finr (x : arch T * outcome WB RB) (m : mem) (o : list io) : Prop := goes (fst x) m o.
Lemma goes_op pc sp a f bc de hl x i im i1 i2 e (j : junk3 T) m o : 0 <= pc < 0x2000 -> (q = false \/ i1 && negb e = false) ->
  (forall t j, wpr (WB:=WB) (RB:=RB) q top true (step ch None (decode (m pc)) t (Sr (w16 (pc + 1)) sp a f bc de hl x (mkCtl i im i1 i2 false) j)) m o finr) ->
  goes (Sr pc sp a f bc de hl x (mkCtl i im i1 i2 e) j) m o.
Proof.
  intros Hp Hq H. apply goes_step. destruct j as [wz r t].
  assert (G : wpr (WB:=WB) (RB:=RB) q top false (fetch (Sr pc sp a f bc de hl x (mkCtl i im i1 i2 e) (mkJunk3 wz r t)) (exec ch)) m o finr).
  { unfold fetch. cbn [wpr]. split; [exact Hp|]. unfold exec, exec_op. refine (H t (mkJunk3 wz _ (c_begin ch t))). }
  assert (IE : int_enabled (Sr pc sp a f bc de hl x (mkCtl i im i1 i2 e) (mkJunk3 wz r t)) = i1 && negb e) by (destruct i1, e; reflexivity).
  unfold next. rewrite IE.
  destruct (i1 && negb e); [|exact G]. destruct Hq as [Hq|Hq]; [|discriminate Hq]. split; [exact Hq|exact G].
Qed.
(** An interrupt in mode 2. *)
Lemma taken_on (h g : bool) pc sp a f bc de hl x i i1 i2 (j : junk3 T) m o : (if g then 0x2002 else 0x4002) <= sp <= top -> top <= 0x10000 -> 0 <= i < 0x1F ->
  (forall v j, 0 <= v < 256 -> let m' := mupd (mupd m (sp - 1) (hi (if h then w16 (pc + 1) else pc) mod 256)) (sp - 2) (lo (if h then w16 (pc + 1) else pc) mod 256) in
    goes (Sr (word_of (m (w16 (256 * i + v + 1))) (m (256 * i + v))) (sp - 2) a f bc de hl x (mkCtl i Mode2 false false false) j)
    m' (o ++ [IAck v])) ->
  on (WB:=WB) (RB:=RB) ch q top P g (accept_int ch ((if h then @Hr T else @Sr T) pc sp a f bc de hl x (mkCtl i Mode2 i1 i2 false) j)) m o.
Proof.
  intros Hs Ht Hi H. apply on_wpr. assert (Hs' : 0x2002 <= sp <= top) by (destruct g; lia). destruct j as [wz r t].
  set (pc' := if h then w16 (pc + 1) else pc) in H.
  assert (E : exists r', accept_int (WB:=WB) (RB:=RB) ch ((if h then @Hr T else @Sr T) pc sp a f bc de hl x (mkCtl i Mode2 i1 i2 false) (mkJunk3 wz r t)) =
    SAck pc' (fun v => SX (word_of i r') 1 (push pc' (Sr pc' sp a f bc de hl x (mkCtl i Mode2 false false false) (mkJunk3 wz r' (c_begin ch t)))
      (fun b => rd16 (word_of (aI b) v) (fun ad => done (jump ad b)))))).
  { destruct h; eexists; reflexivity. }
  destruct E as [r' ->]. cbn [wpr]. intros v Hv. unfold push, rd16, done. cbn [wpr aSP Sr wSP aI kI].
  assert (W1 : w16 (sp - 1) = sp - 1) by (apply w16_id; lia). assert (W2 : w16 (sp - 2) = sp - 2) by (apply w16_id; lia). rewrite W1, W2.
  assert (W3 : w16 (word_of i v + 1) = word_of i v + 1) by (unfold word_of; apply w16_id; lia).
  unfold wrable, rdable, word_of in *. rewrite W3.
  split; [destruct g; lia|]. split; [destruct g; lia|]. repeat (split; [lia|]). specialize (H v (mkJunk3 (256 * mupd (mupd m (sp - 1) (hi pc' mod 256)) (sp - 2) (lo pc' mod 256) (256 * i + v + 1) + mupd (mupd m (sp - 1) (hi pc' mod 256)) (sp - 2) (lo pc' mod 256) (256 * i + v)) r' (c_begin ch t)) Hv).
  cbv zeta in H. 
  assert (U : forall y, y < 0x2000 -> mupd (mupd m (sp - 1) (hi pc' mod 256)) (sp - 2) (lo pc' mod 256) y = m y).
  { intros y Hy. unfold mupd. destruct (Z.eqb_spec y (sp - 2)); [lia|]. destruct (Z.eqb_spec y (sp - 1)); [lia|]. reflexivity. }
  rewrite !U by lia. rewrite !U in H by lia. rewrite W3 in H. exact H.
Qed.
End Asm.

(** Flags. *)
Lemma Zf_bit n v xy f : Zf (s_bit n v xy f) = negb (bitn v n).
Proof. unfold s_bit. apply flag_bits. Qed.
Lemma Cf_bit n v xy f : Cf (s_bit n v xy f) = Cf f.
Proof. unfold s_bit. apply flag_bits. Qed.
Lemma bitn_set n v i : 0 <= i < 8 -> bitn (s_set n v) i = bitn v i || (i =? n).
Proof. intros. unfold bitn at 1, s_set. now rewrite of_bits_testbit. Qed.
Lemma bitn_res n v i : 0 <= i < 8 -> bitn (s_res n v) i = bitn v i && negb (i =? n).
Proof. intros. unfold bitn at 1, s_res. now rewrite of_bits_testbit. Qed.
Lemma set_byte n v : 0 <= s_set n v < 256. Proof. apply of_bits_range. Qed.
Lemma res_byte n v : 0 <= s_res n v < 256. Proof. apply of_bits_range. Qed.
Lemma set_mod n v : s_set n v mod 256 = s_set n v. Proof. apply Z.mod_small, set_byte. Qed.
Lemma res_mod n v : s_res n v mod 256 = s_res n v. Proof. apply Z.mod_small, res_byte. Qed.
Lemma flagbyte_range s z y h x p n c : 0 <= flagbyte s z y h x p n c < 256.
Proof. destruct s, z, y, h, x, p, n, c; vm_compute; split; congruence. Qed.

Definition codeR (m : mem) : Prop := forall i, 0 <= i < 0x2000 -> m i = nth (Z.to_nat i) kernel 255.
Lemma codeR_upd m a v : codeR m -> 0x2000 <= a -> codeR (mupd m a v).
Proof. intros H Ha i Hi. unfold mupd. destruct (Z.eqb_spec i a); [lia|now apply H]. Qed.
Lemma codeR_sees kb h m : sees kb h m -> codeR m.
Proof. intros S i Hi. rewrite (S i) by lia. unfold kview, view. destruct (Z.ltb_spec i 8192); [reflexivity|lia]. Qed.
Definition bytesR (m : mem) : Prop := forall x, 0 <= x < 0x10000 -> 0 <= m x < 256.
Lemma bytesR_sees kb h m : sees kb h m -> Forall byte_op h -> bytesR m.
Proof. intros S B i Hi. rewrite (S i) by lia. apply view_byte. constructor; [exact I|exact B]. Qed.
Ltac code_rw := repeat match goal with
  | Hc : codeR ?m |- context [?m (Zpos ?p)] =>
      let b := eval vm_compute in (Zpos p <? 0x2000) in lazymatch b with true => idtac end;
      let v := eval vm_compute in (nth (Z.to_nat (Zpos p)) kernel 255) in
      replace (m (Zpos p)) with v by (symmetry; exact (Hc (Zpos p) (conj (Zle_0_pos p) eq_refl)))
  | Hc : codeR ?m |- context [?m 0] => replace (m 0) with 243 by (symmetry; refine (Hc 0 _); lia)
  end.
Ltac wside := first [lia | apply lo_range | apply hi_range; lia | apply set_byte | apply res_byte].
Ltac words := repeat match goal with
  | |- context [w16 ?x] => rewrite (w16_id x) by lia
  | |- context [(?x mod 256)] => rewrite (mod_byte x) by wside
  | |- context [w8 ?x] => rewrite (w8_id x) by lia
  | |- context [hi (word_of ?h ?l)] => rewrite (hi_word h l) by wside
  | |- context [lo (word_of ?h ?l)] => rewrite (lo_word h l) by wside
  | |- context [word_of (hi ?x) (lo ?x)] => rewrite (word_hi_lo x)
  end.
Ltac acc_ok := repeat match goal with
  | |- rdable _ _ /\ _ => split; [unfold rdable; first [lia | split; [lia|right; right; reflexivity]]|]
  | |- wrable _ _ _ /\ _ => split; [unfold wrable; lia|]
  | |- 0 <= _ < 8192 /\ _ => split; [lia|]
  end.
Ltac refold1 := lazymatch goal with
  | |- ?w (mkArch ?a ?f ?bc ?de ?hl ?af1 ?bc1 ?de1 ?hl1 ?ix ?iy ?sp ?pc ?wz ?i ?r ?im ?i1 ?i2 ?h ?e None ?q) ?m ?o =>
    let x := lazymatch constr:((af1, bc1, de1, hl1, ix, iy)) with
             | (rAF ?x, rBC ?x, rDE ?x, rHL ?x, rIX ?x, rIY ?x) => x
             | _ => constr:(mkRest af1 bc1 de1 hl1 ix iy) end in
    let S := lazymatch h with true => constr:(@Hr) | false => constr:(@Sr) end in
    change (w (S _ pc sp a f bc de hl x (mkCtl i im i1 i2 e) (mkJunk3 wz r q)) m o);
    generalize (mkJunk3 wz r q); let j := fresh "j" in intros j
    end.
Ltac cycr := lazy beta iota zeta delta [step fetch inc_R andb wpr finr done rd16 imm8 imm8x imm16 push pop ea jump alu acc again out dir
  g_hl s_hl g_r s_r g_rp s_rp g_rp2 s_rp2 s_f
  wA wF wBC wDE wHL wAF' wBC' wDE' wHL' wIX wIY wSP wPC wWZ wI wR wIM wIFF1 wIFF2 wHALT wEI wPX wQ
  aA aF aBC aDE aHL aAF' aBC' aDE' aHL' aIX aIY aSP aPC aWZ aI aR aIM aIFF1 aIFF2 aHALT aEI aPX aQ Sr
  kI kIM k1 k2 kE holds]; cbn [fst snd rAF rBC rDE rHL rIX rIY].
Ltac bits := repeat match goal with
  | H : bitn ?x ?i = _ |- context [bitn ?x ?i] => rewrite H
  | H : Cf ?x = _ |- context [Cf ?x] => rewrite H
  | H : Zf ?x = _ |- context [Zf ?x] => rewrite H end; cbn [negb].
Ltac flags := rewrite ?Cf_cp, ?Zf_dec, ?Cf_dec, ?Zf_inc, ?Cf_inc, ?Zf_bit, ?Cf_bit, ?fst_dec, ?fst_inc; bits.
(** ED and CB groups. *)
Ltac sub := try match goal with
  | |- context [ed_decode ?v] => let i := eval vm_compute in (ed_decode v) in change (ed_decode v) with i; lazy beta iota zeta delta [ed_step]; cycr; wnum; words; flags; wnum; cycr
  | |- context [cb_decode ?v] => let i := eval vm_compute in (cb_decode v) in change (cb_decode v) with i; lazy beta iota zeta delta [cb_reg cb_mem cb rot]; cycr; wnum; words; flags; wnum; cycr
  end.
Ltac answer := try lazymatch goal with
  | |- forall _ : option _, _ => let b := fresh "b" in intros b; cbn [fst snd]; try clear b
  | |- forall v : Z, 0 <= v < 256 -> _ => let v := fresh "v" in let Hv := fresh "Hv" in intros v Hv; cbn [fst snd]
  end.
Ltac body := cbn [negb]; cycr; wnum; words; flags; wnum; cycr; wnum; code_rw; acc_ok; sub; wnum; words; acc_ok; answer; acc_ok; wnum; words; try refold1.
Ltac quiet := first [left; reflexivity | right; reflexivity | left; assumption | right; apply andb_false_r | assumption
  | match goal with H : ?q = false \/ ?i = false |- ?q = false \/ ?i && _ = false => destruct H as [H|H]; [left; exact H|right; rewrite H; reflexivity] end].
Ltac istep := apply goes_op; [lia|quiet|]; let q := fresh "q" in let j := fresh "j" in intros q j; wnum; code_rw;
  match goal with |- context [decode ?v] => let i := eval vm_compute in (decode v) in change (decode v) with i end; body; try clear q; try clear j.
(** After writes: a name for the memory. *)
Ltac setm m1 E1 C1 := match goal with |- goes _ _ _ _ _ ?mm _ =>
  assert (C1 : codeR mm) by (repeat (apply codeR_upd; [|lia]); assumption);
  let mm' := eval unfold mupd in mm in
  assert (E1 : forall x, mm x = mm' x) by (intros; reflexivity);
  set (m1 := mm) in *; clearbody m1; cbv beta in E1 end.
Ltac at_mem E := rewrite ?E; repeat match goal with |- context [(?x =? ?y)] => destruct (Z.eqb_spec x y); try lia end.
