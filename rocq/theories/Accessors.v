(** Laws of the register accessors (z80.rs:143-400), reset and refused interrupts. *)
From Coq Require Import ZArith Bool List Lia.
From Verif Require Import Base Flags Parse Cpu Flavours Prog Trace Internal Instr Exec Range AluProofs Alu16Proofs.
Import ListNotations.
Open Scope Z_scope.

(** Every 8-bit register a programmer can name; the alternate set is reached by [exx]/[ex_af_af]. *)
Inductive reg := rA | rF | rB | rC | rD | rE | rH | rL | rIXh | rIXl | rIYh | rIYl | rI | rR
               | rA' | rF' | rB' | rC' | rD' | rE' | rH' | rL'.
Definition reg_eq_dec (x y : reg) : {x = y} + {x <> y}.
Proof. decide equality. Defined.
(** 16-bit registers and their halves. *)
Inductive pair16 := qAF | qBC | qDE | qHL | qIX | qIY | qAF' | qBC' | qDE' | qHL'.
Definition hi_of (q : pair16) : reg :=
  match q with qAF => rA | qBC => rB | qDE => rD | qHL => rH | qIX => rIXh | qIY => rIYh
             | qAF' => rA' | qBC' => rB' | qDE' => rD' | qHL' => rH' end.
Definition lo_of (q : pair16) : reg :=
  match q with qAF => rF | qBC => rC | qDE => rE | qHL => rL | qIX => rIXl | qIY => rIYl
             | qAF' => rF' | qBC' => rC' | qDE' => rE' | qHL' => rL' end.

Section Acc.
Context {Q : Type}.
Implicit Types c : cpu Q.
(** Reading and writing with the crate's methods. *)
Definition rget (x : reg) c : Z :=
  match x with
  | rA => get_acc c | rF => get_flags c
  | rB => get_reg B None c | rC => get_reg C None c | rD => get_reg D None c | rE => get_reg E None c
  | rH => get_reg H None c | rL => get_reg L None c
  | rIXh => get_reg H (Some Xdd) c | rIXl => get_reg L (Some Xdd) c
  | rIYh => get_reg H (Some Yfd) c | rIYl => get_reg L (Some Yfd) c
  | rI => get_i c | rR => get_r c
  | rA' => fst (get_alt_reg2 SAF c) | rF' => snd (get_alt_reg2 SAF c)
  | rB' => fst (get_alt_reg2 Parse.SBC c) | rC' => snd (get_alt_reg2 Parse.SBC c)
  | rD' => fst (get_alt_reg2 SDE c) | rE' => snd (get_alt_reg2 SDE c)
  | rH' => fst (get_alt_reg2 SHL c) | rL' => snd (get_alt_reg2 SHL c)
  end.
Definition rset (x : reg) (v : Z) c : cpu Q :=
  match x with
  | rA => set_acc v c | rF => set_flags v c
  | rB => set_reg B None v c | rC => set_reg C None v c | rD => set_reg D None v c | rE => set_reg E None v c
  | rH => set_reg H None v c | rL => set_reg L None v c
  | rIXh => set_reg H (Some Xdd) v c | rIXl => set_reg L (Some Xdd) v c
  | rIYh => set_reg H (Some Yfd) v c | rIYl => set_reg L (Some Yfd) v c
  | rI => set_i v c | rR => set_r v c
  | rA' => ex_af_af (set_acc v (ex_af_af c)) | rF' => ex_af_af (set_flags v (ex_af_af c))
  | rB' => exx (set_reg B None v (exx c)) | rC' => exx (set_reg C None v (exx c))
  | rD' => exx (set_reg D None v (exx c)) | rE' => exx (set_reg E None v (exx c))
  | rH' => exx (set_reg H None v (exx c)) | rL' => exx (set_reg L None v (exx c))
  end.
Definition pget (q : pair16) c : Z :=
  match q with
  | qAF => get_reg16 SAF c | qBC => get_reg16 Parse.SBC c | qDE => get_reg16 SDE c | qHL => get_reg16 SHL c
  | qIX => get_index16 Xdd c | qIY => get_index16 Yfd c
  | qAF' => get_alt_reg16 SAF c | qBC' => get_alt_reg16 Parse.SBC c
  | qDE' => get_alt_reg16 SDE c | qHL' => get_alt_reg16 SHL c
  end.
Definition pset (q : pair16) (v : Z) c : cpu Q :=
  match q with
  | qAF => set_reg16 SAF v c | qBC => set_reg16 Parse.SBC v c | qDE => set_reg16 SDE v c | qHL => set_reg16 SHL v c
  | qIX => set_index16 Xdd v c | qIY => set_index16 Yfd v c
  | qAF' => ex_af_af (set_reg16 SAF v (ex_af_af c)) | qBC' => exx (set_reg16 Parse.SBC v (exx c))
  | qDE' => exx (set_reg16 SDE v (exx c)) | qHL' => exx (set_reg16 SHL v (exx c))
  end.
(** Everything else that can be observed. *)
Definition others c :=
  (get_pc c, get_sp c, memptr c, im c, (iff1 c, iff2 c), halt c, prefix c, last_ei c, flavour c).

Lemma hi_mk h l : byte l -> hi8 (mk16 h l) = h.
Proof. unfold byte, hi8, mk16. lia. Qed.
Lemma lo_mk h l : byte l -> lo8 (mk16 h l) = l.
Proof. unfold byte, lo8, mk16. lia. Qed.
Lemma mk_hi_lo w : mk16 (hi8 w) (lo8 w) = w.
Proof. unfold hi8, lo8, mk16. lia. Qed.
Lemma lor_add a b : Z.land a b = 0 -> Z.lor a b = a + b.
Proof. intros E. rewrite Z.add_nocarry_lxor by exact E. symmetry. now apply Z.lxor_lor. Qed.
Lemma land_128_127 x y : Z.land (Z.land x 0x80) (Z.land y 0x7F) = 0.
Proof. rewrite <- !Z.land_assoc, (Z.land_assoc 128 y), (Z.land_comm 128 y), <- Z.land_assoc. 
  change (Z.land 128 127) with 0. now rewrite !Z.land_0_r. Qed.
Lemma land_80 x : byte x -> Z.land x 0x80 = 128 * (x / 128).
Proof.
  intros Hx. change (Z.land x 128) with ((fun v => Z.land v 128) x).
  assert (all1 (fun v => Z.land v 128 =? 128 * (v / 128)) = true) by (vm_compute; reflexivity).
  apply Z.eqb_eq. now apply (all1_spec _ H).
Qed.
Lemma land_7f x : Z.land x 0x7F = x mod 128.
Proof. apply (Z.land_ones x 7). lia. Qed.
Lemma get_r_val c : wf c -> get_r c = 128 * (lo8 (ir c) / 128) + r c mod 128.
Proof.
  intros Hw. unfold get_r. rewrite lor_add by apply land_128_127.
  now rewrite land_80, land_7f by apply lo8_byte.
Qed.
Lemma get_r_byte c : wf c -> byte (get_r c).
Proof. intros Hw. rewrite get_r_val by assumption. pose proof (lo8_byte (ir c)). unfold byte in *. lia. Qed.
Lemma land_ff80 x : word x -> Z.land x 0xFF80 = 128 * (x / 128).
Proof.
  intros Hx. assert (E : Z.lor (Z.land x 0xFF80) (Z.land x 0x7F) = x).
  { rewrite <- Z.land_lor_distr_r. change (Z.lor 65408 127) with (Z.ones 16).
    rewrite Z.land_ones by lia. apply Z.mod_small. exact Hx. }
  rewrite lor_add in E; [rewrite land_7f in E; lia|].
  rewrite Z.land_assoc, (Z.land_comm (Z.land x 65408) x), Z.land_assoc, Z.land_diag, <- Z.land_assoc.
  apply Z.land_0_r.
Qed.
Lemma get_ir_val c : wf c -> get_ir c = mk16 (get_i c) (get_r c).
Proof.
  intros Hw. rewrite get_r_val by assumption. unfold get_ir, get_i, mk16.
  pose proof (wf_ir _ Hw) as HI.
  rewrite lor_add.
  - rewrite land_ff80, land_7f by assumption. unfold hi8, lo8, word in *. lia.
  - rewrite <- !Z.land_assoc, (Z.land_assoc 65408 (r c)), (Z.land_comm 65408 (r c)), <- Z.land_assoc.
    change (Z.land 65408 127) with 0. now rewrite !Z.land_0_r.
Qed.
(** R counts modulo 128, bit 7 is kept. *)
Lemma get_r_inc c : wf c -> get_r (inc_r c) = 128 * (get_r c / 128) + (get_r c mod 128 + 1) mod 128.
Proof.
  intros Hw. rewrite !get_r_val by (assumption || auto with rng).
  unfold inc_r; cbn [r ir set_rfield]. unfold u8. pose proof (lo8_byte (ir c)). unfold byte in *. lia.
Qed.
Lemma get_r_set v c : wf c -> byte v -> get_r (set_r v c) = v.
Proof.
  intros Hw Hv. rewrite get_r_val by auto with rng. unfold set_r; cbn [r ir set_rfield set_ir].
  unfold set8lo. rewrite lo_mk by assumption. unfold byte in *. lia.
Qed.
Lemma get_r_add d c : wf c -> get_r (add_r d c) = 128 * (get_r c / 128) + (get_r c mod 128 + d) mod 128.
Proof.
  intros Hw. assert (wf (add_r d c)).
  { destruct Hw. constructor; try assumption. cbn. unfold u8, byte. lia. }
  rewrite !get_r_val by assumption.
  unfold add_r; cbn [r ir set_rfield]. unfold u8. pose proof (lo8_byte (ir c)). unfold byte in *. lia.
Qed.

Ltac fieldred := cbn [rget rset pget pset others get_acc set_acc get_flags set_flags get_reg set_reg get_i set_i
  get_alt_reg2 get_alt_reg16 get_reg16 set_reg16 get_index16 set_index16 ex_af_af exx get_pc get_sp
  set_af set_af_alt set_bc set_de set_hl set_ix set_iy set_ir set_rfield fst snd hi_of lo_of
  af af_alt bc de hl bc_alt de_alt hl_alt ix iy pc sp memptr last_ei ir im iff1 iff2 halt prefix r flavour].
Lemma get_r_hi v c : wf c -> get_r (set_i v c) = get_r c.
Proof.
  intros Hw. unfold get_r, set_i. cbn [ir r set_ir]. unfold set8hi.
  now rewrite lo_mk by apply lo8_byte.
Qed.
Lemma rget_rset x y v c : wf c -> byte v -> rget y (rset x v c) = if reg_eq_dec x y then v else rget y c.
Proof.
  intros Hw Hv. destruct x, y;
    match goal with |- context [reg_eq_dec ?a ?b] => destruct (reg_eq_dec a b); try congruence end;
    first [ apply get_r_set; assumption | apply get_r_hi; assumption
          | fieldred; unfold get_acc, set_acc, get_flags, set_flags, get_i, set_i, set_r, set8hi, set8lo; fieldred;
            rewrite ?hi_mk, ?lo_mk by (assumption || apply lo8_byte || apply Hv); reflexivity ].
Qed.
Lemma others_rset x v c : others (rset x v c) = others c.
Proof. destruct x; reflexivity. Qed.
Lemma pget_rget q c : pget q c = 256 * rget (hi_of q) c + rget (lo_of q) c.
Proof. symmetry. destruct q; apply mk_hi_lo. Qed.
Lemma rget_pset q y v c : wf c -> word v ->
  rget y (pset q v c) = if reg_eq_dec (hi_of q) y then v / 256
                        else if reg_eq_dec (lo_of q) y then v mod 256 else rget y c.
Proof.
  intros Hw Hv. destruct q, y; cbn [hi_of lo_of];
    repeat match goal with |- context [reg_eq_dec ?a ?b] => destruct (reg_eq_dec a b); try congruence end; reflexivity.
Qed.
Lemma others_pset q v c : others (pset q v c) = others c.
Proof. destruct q; reflexivity. Qed.
Lemma exx_exx c : exx (exx c) = c.
Proof. destruct c; reflexivity. Qed.
Lemma ex_af_af2 c : ex_af_af (ex_af_af c) = c.
Proof. destruct c; reflexivity. Qed.
Lemma ex_de_hl2 c : ex_de_hl (ex_de_hl c) = c.
Proof. destruct c; reflexivity. Qed.
End Acc.

Section Refused.
Context {Q TS WB RB : Type}.
Variable FL : Flavour Q.
Implicit Types c : cpu Q.
(** When the documentation says an interrupt is accepted: cpu.rs:126-128, 155-195. *)
Definition int_ok c : Prop := prefix c = None /\ last_ei c = false.
Lemma int_ok_iff c : is_int_allowed (prefix c) (last_ei c) = true <-> int_ok c.
Proof. unfold is_int_allowed, int_ok. destruct (prefix c), (last_ei c); cbn; split; intuition congruence. Qed.
Lemma irq_refused dbg c BS CK (Hs : host TS WB RB BS CK) b k c' o b' k' ds :
  run Hs (irq FL dbg c) b k = Some ((c', o), b', k', ds) ->
  (o = None <-> ~ (iff1 c = true /\ int_ok c)) /\ (o = None -> c' = c /\ b' = b /\ k' = k /\ ds = []).
Proof.
  unfold irq, is_irq_allowed. rewrite <- int_ok_iff.
  destruct (iff1 c), (is_int_allowed (prefix c) (last_ei c)); cbn [andb];
    try (cbn; intros E; injection E as <- <- <- <- <-; intuition congruence).
  intros E. rewrite run_runl in E.
  assert (G : o <> None).
  { clear - E. revert E. generalize (irq_no_check (TS:=TS) (WB:=WB) (RB:=RB) FL dbg c). intros p. revert b k c' o b' k' ds.
    induction p; intros b0 k0 c0 o0 b0' k0' ds0; cbn [pbind runl];
    repeat match goal with |- context [let (_, _) := ?x in _] => destruct x end;
    try (intros E; injection E; intros; subst; discriminate); try discriminate;
    cbn beta; intros E;
    match type of E with context [cons_log _ ?x] => destruct x as [[[[[? ?] ?] ?] ?]|] eqn:F; [|discriminate] end;
    cbn [cons_log] in E; injection E; intros; subst;
    match goal with IH : _ |- _ => eapply IH; rewrite F; reflexivity end. }
  split; [|congruence]. split; [congruence|]. intros N. exfalso. apply N. auto.
Qed.
Lemma nmi_refused c BS CK (Hs : host TS WB RB BS CK) b k c' o b' k' ds :
  run Hs (nmi FL c) b k = Some ((c', o), b', k', ds) ->
  (o = false <-> ~ int_ok c) /\ (o = false -> c' = c /\ b' = b /\ k' = k /\ ds = []).
Proof.
  unfold nmi. rewrite <- int_ok_iff.
  destruct (is_int_allowed (prefix c) (last_ei c));
    [|cbn; intros E; injection E as <- <- <- <- <-; intuition congruence].
  intros E. rewrite run_runl in E.
  assert (G : o <> false).
  { clear - E. revert E. generalize (nmi_no_check (TS:=TS) (WB:=WB) (RB:=RB) FL c). intros p. revert b k c' o b' k' ds.
    induction p; intros b0 k0 c0 o0 b0' k0' ds0; cbn [pbind runl];
    repeat match goal with |- context [let (_, _) := ?x in _] => destruct x end;
    try (intros E; injection E; intros; subst; discriminate); try discriminate;
    cbn beta; intros E;
    match type of E with context [cons_log _ ?x] => destruct x as [[[[[? ?] ?] ?] ?]|] eqn:F; [|discriminate] end;
    cbn [cons_log] in E; injection E; intros; subst;
    match goal with IH : _ |- _ => eapply IH; rewrite F; reflexivity end. }
  split; [|congruence]. split; [congruence|]. intros N. exfalso. apply N. auto.
Qed.
End Refused.

Section Reset.
Context {Q : Type}.
(** A prefix selects the index register for H and L only. *)
Lemma get_reg_prefix g p (c : cpu Q) : g <> H -> g <> L ->
  get_reg g p c = get_reg g None c /\ forall v, set_reg g p v c = set_reg g None v c.
Proof. intros NH NL. destruct g; try congruence; split; reflexivity. Qed.
Lemma reset_regs (FL : Flavour Q) x c :
  rget x (reset FL c) = match x with rA | rF | rA' | rF' => 255 | _ => 0 end.
Proof. destruct x; reflexivity. Qed.
Lemma reset_others (FL : Flavour Q) c :
  others (reset FL c) = (0, 65535, 0, Mode0, (false, false), false, None, false, flavour_reset FL (flavour c)).
Proof. reflexivity. Qed.
Lemma pair2 s c : get_reg2 (Q:=Q) s c = (get_reg16 s c / 256, get_reg16 s c mod 256)
  /\ get_alt_reg2 s c = (get_alt_reg16 s c / 256, get_alt_reg16 s c mod 256).
Proof. split; reflexivity. Qed.
Lemma set2 s h l (c : cpu Q) : set_reg2 s h l c = set_reg16 s (256 * h + l) c.
Proof. reflexivity. Qed.
End Reset.
Lemma reset_const (c1 c2 : cpu qstate) (d1 d2 : cpu unit) :
  reset NMOS c1 = reset NMOS c2 /\ reset BM1 c1 = reset BM1 c2 /\ reset CMOS d1 = reset CMOS d2.
Proof. repeat split. Qed.
