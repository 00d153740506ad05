(** Running machine code symbolically on the specification: states and tactics. *)
From Coq Require Import ZArith Bool List Lia.
From Verif Require Import Base Parse Clock SpecAlu SpecState SpecIsa SpecProgram IsaRun Trace Hoare.
Import ListNotations.
Open Scope Z_scope.

(** What programs do not look at. *)
Record junk (T : Type) := mkJunk { jWZ : Z; jI : Z; jR : Z; jIM : InterruptMode; jIFF2 : bool; jQ : T }.
Arguments mkJunk {T}. Arguments jWZ {T}. Arguments jI {T}. Arguments jR {T}. Arguments jIM {T}. Arguments jIFF2 {T}. Arguments jQ {T}.
(** The other registers: AF', BC', DE', HL', IX, IY. *)
Record rest := mkRest { rAF : Z; rBC : Z; rDE : Z; rHL : Z; rIX : Z; rIY : Z }.
Definition St {T} (pc sp a f bc de hl : Z) (x : rest) (j : junk T) : arch T :=
  mkArch a f bc de hl (rAF x) (rBC x) (rDE x) (rHL x) (rIX x) (rIY x) sp pc (jWZ j) (jI j) (jR j) (jIM j) false (jIFF2 j) false false None (jQ j).
(** Halted. *)
Definition Ht {T} (pc sp a f bc de hl : Z) (x : rest) (j : junk T) : arch T :=
  mkArch a f bc de hl (rAF x) (rBC x) (rDE x) (rHL x) (rIX x) (rIY x) sp pc (jWZ j) (jI j) (jR j) (jIM j) false (jIFF2 j) true false None (jQ j).

(** Bytes and words. *)
Lemma hi_word h l : 0 <= l < 256 -> hi (word_of h l) = h.
Proof. intros. unfold hi, word_of. rewrite Z.mul_comm, Z.div_add_l, Z.div_small; lia. Qed.
Lemma lo_word h l : 0 <= l < 256 -> lo (word_of h l) = l.
Proof. intros. unfold lo, word_of. rewrite Z.add_comm, Z.mul_comm, Z.mod_add, Z.mod_small; lia. Qed.
Lemma word_hi_lo x : word_of (hi x) (lo x) = x.
Proof. unfold word_of, hi, lo. rewrite <- Z.div_mod; lia. Qed.
Lemma hi_range x : 0 <= x < 65536 -> 0 <= hi x < 256.
Proof. unfold hi. intros. split; [apply Z.div_pos; lia|apply Z.div_lt_upper_bound; lia]. Qed.
Lemma lo_range x : 0 <= lo x < 256.
Proof. unfold lo. apply Z.mod_pos_bound. lia. Qed.
Lemma w16_id x : 0 <= x < 65536 -> w16 x = x.
Proof. intros. unfold w16. now apply Z.mod_small. Qed.
Lemma w8_id x : 0 <= x < 256 -> w8 x = x.
Proof. intros. unfold w8. now apply Z.mod_small. Qed.
Lemma mod_byte x : 0 <= x < 256 -> x mod 256 = x.
Proof. intros. now apply Z.mod_small. Qed.

Section Asm.
Context {T WB RB : Type}.
Variable ch : chip T.
Variables rom top : Z.
Variable P : arch T -> mem -> outs -> Z -> Prop.
Notation will := (will (WB:=WB) (RB:=RB) ch rom top P).
Notation tree := (cyc WB RB (arch T * outcome WB RB)).
Definition fin (x : arch T * outcome WB RB) (m : mem) (o : outs) (n : Z) : Prop := ends (fst x) (snd x) /\ will (fst x) m o n.
Lemma will_op pc sp a f bc de hl x (j : junk T) m o n : 0 <= pc < top ->
  (forall q j, wpt (WB:=WB) (RB:=RB) rom top (step ch None (decode (m pc)) q (St (w16 (pc + 1)) sp a f bc de hl x j)) m o (n + 4) fin) ->
  will (St pc sp a f bc de hl x j) m o n.
Proof.
  intros Hp H. apply will_step; [reflexivity..|].
  unfold next, fetch, int_enabled. cbn [aHALT aIFF1 St andb wpt].
  split; [exact Hp|]. 
  unfold exec, exec_op. destruct j as [wz i r im iff2 q].
  refine (H q (mkJunk wz i _ im iff2 (c_begin ch q))).
Qed.
Lemma will_ed pc sp a f bc de hl x (j : junk T) m o n : readable top pc ->
  (forall j, wpt (WB:=WB) (RB:=RB) rom top (ed_step ch (ed_decode (m pc)) (St (w16 (pc + 1)) sp a f bc de hl x j)) m o (n + 4) fin) ->
  wpt (WB:=WB) (RB:=RB) rom top (fetch (St pc sp a f bc de hl x j) (fun c a => ed_step ch (ed_decode c) a)) m o n fin.
Proof.
  intros Hp H. unfold fetch. cbn [wpt]. split; [exact Hp|]. destruct j as [wz i r im iff2 q].
  refine (H (mkJunk wz i _ im iff2 q)).
Qed.
End Asm.

(** Flags. *)
Lemma bz_range b : 0 <= bz b <= 1.
Proof. destruct b; cbn; lia. Qed.
Lemma flag_bits s z y h x p n c : let f := flagbyte s z y h x p n c in
  Sf f = s /\ Zf f = z /\ Pf f = p /\ Cf f = c /\ Hf f = h /\ Nf f = n.
Proof. destruct s, z, y, h, x, p, n, c; vm_compute; repeat split. Qed.
Lemma Cf_szxy r xy h p n c : Cf (flags_szxy r xy h p n c) = c.
Proof. unfold flags_szxy. apply flag_bits. Qed.
Lemma Zf_szxy r xy h p n c : Zf (flags_szxy r xy h p n c) = (r =? 0).
Proof. unfold flags_szxy. apply flag_bits. Qed.
Lemma Cf_cp x v : Cf (s_cp x v) = (x <? v).
Proof. unfold s_cp. rewrite Cf_szxy. destruct (Z.ltb_spec (x - v) 0), (Z.ltb_spec x v); try reflexivity; lia. Qed.
Lemma Zf_cp x v : 0 <= x < 256 -> 0 <= v < 256 -> Zf (s_cp x v) = (x =? v).
Proof.
  intros. unfold s_cp. rewrite Zf_szxy. destruct (Z.eqb_spec x v) as [->|N]; [now rewrite Z.sub_diag|].
  apply Z.eqb_neq. intros E. apply Z.mod_divide in E; [|lia]. destruct E as [k E]. assert (k = 0) by lia. lia.
Qed.
Lemma fst_dec v f : fst (s_dec v f) = w8 (v - 1).
Proof. reflexivity. Qed.
Lemma fst_inc v f : fst (s_inc v f) = w8 (v + 1).
Proof. reflexivity. Qed.
Lemma Zf_inc v f : Zf (snd (s_inc v f)) = (w8 (v + 1) =? 0).
Proof. cbn [s_inc snd]. apply Zf_szxy. Qed.
Lemma Cf_inc v f : Cf (snd (s_inc v f)) = Cf f.
Proof. cbn [s_inc snd]. apply Cf_szxy. Qed.
Lemma Zf_dec v f : Zf (snd (s_dec v f)) = (w8 (v - 1) =? 0).
Proof. cbn [s_dec snd]. apply Zf_szxy. Qed.
Lemma Cf_dec v f : Cf (snd (s_dec v f)) = Cf f.
Proof. cbn [s_dec snd]. apply Cf_szxy. Qed.
Lemma Pf_ldx a v z f : Pf (s_ldx a v z f) = negb z.
Proof. unfold s_ldx. apply flag_bits. Qed.

(** Numerals. *)
Ltac wnum := repeat match goal with
  | |- context [w16 (Zpos ?p + Zpos ?q)] => let v := eval vm_compute in (w16 (Zpos p + Zpos q)) in change (w16 (Zpos p + Zpos q)) with v
  | |- context [w16 (Zpos ?p - Zpos ?q)] => let v := eval vm_compute in (w16 (Zpos p - Zpos q)) in change (w16 (Zpos p - Zpos q)) with v
  | |- context [w16 (0 + Zpos ?q)] => let v := eval vm_compute in (w16 (0 + Zpos q)) in change (w16 (0 + Zpos q)) with v
  | |- context [disp (Zpos ?p) (Zpos ?q)] => let v := eval vm_compute in (disp (Zpos p) (Zpos q)) in change (disp (Zpos p) (Zpos q)) with v
  | |- context [word_of (Zpos ?p) (Zpos ?q)] => let v := eval vm_compute in (word_of (Zpos p) (Zpos q)) in change (word_of (Zpos p) (Zpos q)) with v
  | |- context [word_of 0 (Zpos ?q)] => let v := eval vm_compute in (word_of 0 (Zpos q)) in change (word_of 0 (Zpos q)) with v
  | |- context [word_of (Zpos ?q) 0] => let v := eval vm_compute in (word_of (Zpos q) 0) in change (word_of (Zpos q) 0) with v
  | |- context [word_of 0 0] => change (word_of 0 0) with 0
  | |- context [hi (Zpos ?p)] => let v := eval vm_compute in (hi (Zpos p)) in change (hi (Zpos p)) with v
  | |- context [lo (Zpos ?p)] => let v := eval vm_compute in (lo (Zpos p)) in change (lo (Zpos p)) with v
  | |- context [w8 (Zpos ?p + Zpos ?q)] => let v := eval vm_compute in (w8 (Zpos p + Zpos q)) in change (w8 (Zpos p + Zpos q)) with v
  | |- context [w8 (Zpos ?p - Zpos ?q)] => let v := eval vm_compute in (w8 (Zpos p - Zpos q)) in change (w8 (Zpos p - Zpos q)) with v
  | |- context [w8 (0 - 1)] => change (w8 (0 - 1)) with 255
  | |- context [w8 (0 + 1)] => change (w8 (0 + 1)) with 1
  | |- context [Zpos ?p =? 0] => change (Zpos p =? 0) with false
  | |- context [0 =? 0] => change (0 =? 0) with true
  | |- context [hi 0] => change (hi 0) with 0
  | |- context [lo 0] => change (lo 0) with 0
  end.
Ltac cyc := lazy beta iota zeta delta [step fetch inc_R andb wpt fin done rd16 imm8 imm8x imm16 push pop ea jump alu acc again out dir
  g_hl s_hl g_r s_r g_rp s_rp g_rp2 s_rp2 s_f
  wA wF wBC wDE wHL wAF' wBC' wDE' wHL' wIX wIY wSP wPC wWZ wI wR wIM wIFF1 wIFF2 wHALT wEI wPX wQ
  aA aF aBC aDE aHL aAF' aBC' aDE' aHL' aIX aIY aSP aPC aWZ aI aR aIM aIFF1 aIFF2 aHALT aEI aPX aQ St
  ends holds]; cbn [fst snd].
