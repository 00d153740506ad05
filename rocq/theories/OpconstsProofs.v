(** Encodings against the instruction tables of SpecIsa. *)
From Coq Require Import ZArith Bool String List Lia.
From Verif Require Import Base Flags Ops Parse Cpu SpecAlu SpecState SpecIsa SpecCycles IsaCycles Format Opconsts.
Import ListNotations.
Open Scope string_scope.
Open Scope list_scope.
Open Scope Z_scope.

Lemma byte_cases (P : Z -> Prop) : Forall P all_bytes -> forall c, byte c -> P c.
Proof. intros H c Hc. exact (all_bytes_spec P H c Hc). Qed.
(** 256 cases, each by computation. *)
Ltac case1 :=
  lazymatch goal with
  | |- forall _, _ => intro; case1
  | |- _ /\ _ => split; case1
  | |- _ <-> _ => split; case1
  | H : _ /\ _ |- _ => let H1 := fresh in let H2 := fresh in destruct H as [H1 H2]; case1
  | H : ?x = ?y |- _ => first [discriminate H | (injection H as H; subst; reflexivity) | (injection H; intros; subst; repeat split; reflexivity)
                              | (subst; repeat split; reflexivity) | (clear H; case1)]
  | |- _ => reflexivity
  end.
Ltac cases256 := let c := fresh "c" in let Hc := fresh in intros c Hc; pattern c; apply byte_cases; [clear c Hc|exact Hc]; unfold all_bytes;
  let l := eval vm_compute in (map Z.of_nat (seq 0 256)) in change (map Z.of_nat (seq 0 256)) with l;
  repeat (apply Forall_cons; [cbv; case1|]); apply Forall_nil.

Lemma ret_cc : forall c, byte c -> forall cc, decode c = I_RETcc cc <-> Z.land c RET_CC_OPMASK = RET_CC_OPBASE /\ cond_from c = cc.
Proof. cases256. Qed.
Lemma call_cc : forall c, byte c -> forall cc, decode c = I_CALLcc cc <-> Z.land c CALL_CC_OPMASK = CALL_CC_OPBASE /\ cond_from c = cc.
Proof. cases256. Qed.
Lemma jp_cc : forall c, byte c -> forall cc, decode c = I_JPcc cc <-> Z.land c JP_CC_OPMASK = JP_CC_OPBASE /\ cond_from c = cc.
Proof. cases256. Qed.
Lemma jr_cc : forall c, byte c -> forall cc, decode c = I_JRcc cc <-> Z.land c JR_CC_OPMASK = JR_CC_OPBASE /\ cond_from_jr_subset c = cc.
Proof. cases256. Qed.
Lemma rst_a : forall c, byte c -> forall a, decode c = I_RST a <-> Z.land c RST_OPMASK = RST_OPBASE /\ parse_restart_address c = a.
Proof. cases256. Qed.
Lemma retn_class : forall c, byte c -> (ed_decode c = D_RETN \/ ed_decode c = D_RETI) <-> Z.land c RETN_OP2_MASK = RETN_OP2_BASE.
Proof.
  intros c Hc; pattern c; apply byte_cases; [clear c Hc|exact Hc]; unfold all_bytes;
  let l := eval vm_compute in (map Z.of_nat (seq 0 256)) in change (map Z.of_nat (seq 0 256)) with l;
  repeat (apply Forall_cons; [cbv; split; [intros [X|X]; first [discriminate X|reflexivity]|intros X; first [discriminate X|left; reflexivity|right; reflexivity]]|]); apply Forall_nil.
Qed.
Lemma rst_list : forall c, byte c -> In c RST_OPCODES <-> Z.land c RST_OPMASK = RST_OPBASE.
Proof.
  intros c Hc; pattern c; apply byte_cases; [clear c Hc|exact Hc]; unfold all_bytes;
  let l := eval vm_compute in (map Z.of_nat (seq 0 256)) in change (map Z.of_nat (seq 0 256)) with l;
  repeat (apply Forall_cons; [cbv; split; [intros X; repeat destruct X as [X|X]; first [discriminate X|reflexivity|destruct X]|intros X; first [discriminate X|tauto]]|]); apply Forall_nil.
Qed.

(** Single op-codes. *)
Lemma single : forall c, byte c ->
  (c = NOP_OPCODE <-> decode c = I_NOP) /\ (c = HALT_OPCODE <-> decode c = I_HALT) /\ (c = DI_OPCODE <-> decode c = I_DI) /\
  (c = EI_OPCODE <-> decode c = I_EI) /\ (c = RET_OPCODE <-> decode c = I_RET) /\ (c = CALL_OPCODE <-> decode c = I_CALL) /\
  (c = JP_OPCODE <-> decode c = I_JP) /\ (c = JR_OPCODE <-> decode c = I_JR) /\ (c = DJNZ_OPCODE <-> decode c = I_DJNZ) /\
  (c = ED_PREFIX <-> decode c = I_ED) /\ (c = DD_PREFIX <-> decode c = I_PFX Xdd) /\ (c = FD_PREFIX <-> decode c = I_PFX Yfd).
Proof. cases256. Qed.
Lemma reti_t2 : fst RETI_OPCODE_T2 = ED_PREFIX /\ forall c, byte c -> c = snd RETI_OPCODE_T2 <-> ed_decode c = D_RETI.
Proof. split; [reflexivity|]. cases256. Qed.
Lemma retn_t2 : fst RETN_OPCODE_T2 = ED_PREFIX /\ ed_decode (snd RETN_OPCODE_T2) = D_RETN.
Proof. split; reflexivity. Qed.

(** Building. *)
Lemma build_cc cc :
  decode (Z.lor RET_CC_OPBASE (cond_to_code cc)) = I_RETcc cc /\
  decode (Z.lor CALL_CC_OPBASE (cond_to_code cc)) = I_CALLcc cc /\
  decode (Z.lor JP_CC_OPBASE (cond_to_code cc)) = I_JPcc cc.
Proof. destruct cc; repeat split; reflexivity. Qed.
Lemma build_jr cc : (exists c, byte c /\ decode c = I_JRcc cc) <-> decode (Z.lor JR_CC_OPBASE (cond_to_code cc)) = I_JRcc cc.
Proof.
  split.
  - intros (c & Hc & Hd). apply jr_cc in Hd as [_ <-]; [|exact Hc].
    revert c Hc. cases256.
  - destruct cc; intros E; try discriminate E; eexists; (split; [|exact E]); unfold byte; cbv; split; discriminate || reflexivity.
Qed.
Lemma build_jr_list cc : decode (Z.lor JR_CC_OPBASE (cond_to_code cc)) = I_JRcc cc <-> In cc [NZ; CZ; NC; CC].
Proof. destruct cc; cbv; (split; [intros X; first [discriminate X|tauto]|intros X; repeat destruct X as [X|X]; first [discriminate X|reflexivity|destruct X]]). Qed.
Lemma build_rst k : (k < 8)%nat ->
  decode (Z.lor RST_OPBASE (8 * Z.of_nat k)) = I_RST (8 * Z.of_nat k) /\ nth_error RST_OPCODES k = Some (Z.lor RST_OPBASE (8 * Z.of_nat k)).
Proof. intros Hk. do 8 (destruct k as [|k]; [split; reflexivity|]). lia. Qed.

(** Fields. *)
Lemma fields_back : 
  (forall x, cond_from (cond_to_code x) = x) /\ (forall x, stkreg16_from (stkreg16_to_code x) = x) /\
  (forall x, reg16_from (reg16_to_code x) = x) /\ (forall x, ops8_from (ops8_to_code x) = x) /\
  (forall x, rot_from (rot_to_code x) = x) /\ (forall x, reg8_try_from (reg8_to_code x) = Some x) /\
  (forall x, prefix_try_from (prefix_to_code x) = Some x) /\ (forall x, im_try_from (im_to_mode_number x) = Some x) /\
  (forall x, cond_from_str (cond_str x) = Some x).
Proof. repeat split; intros x; destruct x; reflexivity. Qed.
Lemma fields_total : forall c, byte c ->
  cond_to_code (cond_from c) = Z.land c 0x38 /\ ops8_to_code (ops8_from c) = Z.land c 0x38 /\ rot_to_code (rot_from c) = Z.land c 0x38 /\
  stkreg16_to_code (stkreg16_from c) = Z.land c 0x30 /\ reg16_to_code (reg16_from c) = Z.land c 0x30.
Proof. cases256. Qed.
Lemma reg8_total : forall c, byte c ->
  match reg8_try_from c with Some r => reg8_to_code r = Z.land c 7 | None => Z.land c 7 = 6 end.
Proof. cases256. Qed.
Lemma prefix_total c : match prefix_try_from c with Some p => prefix_to_code p = c | None => c <> 0xDD /\ c <> 0xFD end.
Proof. unfold prefix_try_from. destruct (Z.eqb_spec c 0xDD) as [->|]; [reflexivity|]. destruct (Z.eqb_spec c 0xFD) as [->|]; [reflexivity|]. now split. Qed.
Lemma im_total n : match im_try_from n with Some m => im_to_mode_number m = n | None => ~ 0 <= n <= 2 end.
Proof.
  unfold im_try_from. destruct (Z.eqb_spec n 0) as [->|]; [reflexivity|]. destruct (Z.eqb_spec n 1) as [->|]; [reflexivity|].
  destruct (Z.eqb_spec n 2) as [->|]; [reflexivity|]. lia.
Qed.
Lemma cond_str_total s : match cond_from_str s with Some c => cond_str c = s | None => forall c, cond_str c <> s end.
Proof.
  unfold cond_from_str.
  repeat match goal with |- context [(s =? ?x)%string] => destruct (String.eqb_spec s x) as [->|]; [reflexivity|] end.
  intros c E; subst s. destruct c; cbn in *; congruence.
Qed.

(** Conditions. *)
Lemma contains_bit f k : 0 <= k -> contains f (2 ^ k) = Z.testbit f k.
Proof.
  intros Hk. unfold contains. apply Bool.eq_iff_eq_true. rewrite Z.eqb_eq. split.
  - intros E. assert (T : Z.testbit (Z.land f (2 ^ k)) k = true) by (rewrite E; apply Z.pow2_bits_true; exact Hk).
    rewrite Z.land_spec, Z.pow2_bits_true in T by exact Hk. now rewrite andb_true_r in T.
  - intros E. apply Z.bits_inj'. intros n Hn. rewrite Z.land_spec.
    destruct (Z.eq_dec n k) as [->|Hne]; [now rewrite E|].
    rewrite Z.pow2_bits_false by congruence. apply andb_false_r.
Qed.
Lemma satisfied0 f x :
  is_satisfied x f = Bool.eqb (Z.testbit f (nth (Z.to_nat (cond_to_code x / 16 mod 4)) [6; 0; 2; 7] 0)) (Z.testbit (cond_to_code x) 3).
Proof.
  assert (E6 := contains_bit f 6 ltac:(lia)). assert (E0 := contains_bit f 0 ltac:(lia)).
  assert (E2 := contains_bit f 2 ltac:(lia)). assert (E7 := contains_bit f 7 ltac:(lia)).
  change (2 ^ 6) with FZ in E6. change (2 ^ 0) with FC in E0. change (2 ^ 2) with FPV in E2. change (2 ^ 7) with FS in E7.
  destruct x; unfold is_satisfied;
    match goal with |- context [nth ?a ?b ?c] => let v := eval vm_compute in (nth a b c) in change (nth a b c) with v end;
    match goal with |- context [Z.testbit (cond_to_code ?a) 3] => let v := eval vm_compute in (Z.testbit (cond_to_code a) 3) in change (Z.testbit (cond_to_code a) 3) with v end;
    rewrite ?E6, ?E0, ?E2, ?E7; match goal with |- context [Bool.eqb ?t _] => destruct t end; reflexivity.
Qed.
Lemma cond_bits : forall c, byte c -> cond_to_code (cond_from c) / 16 mod 4 = c / 16 mod 4 /\ Z.testbit (cond_to_code (cond_from c)) 3 = Z.testbit c 3.
Proof. cases256. Qed.
Lemma satisfied f : forall c, byte c ->
  is_satisfied (cond_from c) f = Bool.eqb (Z.testbit f (nth (Z.to_nat (c / 16 mod 4)) [6; 0; 2; 7] 0)) (Z.testbit c 3).
Proof. intros c Hc. rewrite satisfied0. destruct (cond_bits c Hc) as [-> ->]. reflexivity. Qed.
Lemma opposite x y : cond_to_code y = Z.lxor (cond_to_code x) 8 -> forall f, is_satisfied y f = negb (is_satisfied x f).
Proof.
  intros E f. destruct x, y; try discriminate E; unfold is_satisfied; rewrite ?negb_involutive; reflexivity.
Qed.
Lemma opposite_only x y : (forall f, byte f -> is_satisfied y f = negb (is_satisfied x f)) -> cond_to_code y = Z.lxor (cond_to_code x) 8.
Proof.
  intros E.
  assert (P0 := E 0x00 ltac:(unfold byte; lia)). assert (P1 := E 0x40 ltac:(unfold byte; lia)). assert (P2 := E 0x01 ltac:(unfold byte; lia)).
  assert (P3 := E 0x04 ltac:(unfold byte; lia)). assert (P4 := E 0x80 ltac:(unfold byte; lia)). clear E.
  destruct x, y; try reflexivity; exfalso; cbv in P0, P1, P2, P3, P4; congruence.
Qed.

Lemma match_all : forall c, byte c ->
  (forall cc, decode c = I_RETcc cc <-> Z.land c RET_CC_OPMASK = RET_CC_OPBASE /\ cond_from c = cc) /\
  (forall cc, decode c = I_CALLcc cc <-> Z.land c CALL_CC_OPMASK = CALL_CC_OPBASE /\ cond_from c = cc) /\
  (forall cc, decode c = I_JPcc cc <-> Z.land c JP_CC_OPMASK = JP_CC_OPBASE /\ cond_from c = cc) /\
  (forall cc, decode c = I_JRcc cc <-> Z.land c JR_CC_OPMASK = JR_CC_OPBASE /\ cond_from_jr_subset c = cc) /\
  (forall a, decode c = I_RST a <-> Z.land c RST_OPMASK = RST_OPBASE /\ parse_restart_address c = a) /\
  ((ed_decode c = D_RETN \/ ed_decode c = D_RETI) <-> Z.land c RETN_OP2_MASK = RETN_OP2_BASE).
Proof.
  intros c Hc. split; [|split; [|split; [|split; [|split]]]].
  - exact (ret_cc c Hc). - exact (call_cc c Hc). - exact (jp_cc c Hc). - exact (jr_cc c Hc). - exact (rst_a c Hc). - exact (retn_class c Hc).
Qed.
Lemma single_all : forall c, byte c ->
  (c = NOP_OPCODE <-> decode c = I_NOP) /\ (c = HALT_OPCODE <-> decode c = I_HALT) /\ (c = DI_OPCODE <-> decode c = I_DI) /\
  (c = EI_OPCODE <-> decode c = I_EI) /\ (c = RET_OPCODE <-> decode c = I_RET) /\ (c = CALL_OPCODE <-> decode c = I_CALL) /\
  (c = JP_OPCODE <-> decode c = I_JP) /\ (c = JR_OPCODE <-> decode c = I_JR) /\ (c = DJNZ_OPCODE <-> decode c = I_DJNZ) /\
  (c = ED_PREFIX <-> decode c = I_ED) /\ (c = DD_PREFIX <-> decode c = I_PFX Xdd) /\ (c = FD_PREFIX <-> decode c = I_PFX Yfd) /\
  (c = snd RETI_OPCODE_T2 <-> ed_decode c = D_RETI) /\
  fst RETI_OPCODE_T2 = ED_PREFIX /\ fst RETN_OPCODE_T2 = ED_PREFIX /\ ed_decode (snd RETN_OPCODE_T2) = D_RETN.
Proof.
  intros c Hc. pose proof (single c Hc) as S1. pose proof (proj2 reti_t2 c Hc) as S2. destruct retn_t2 as [S3 S4]. pose proof (proj1 reti_t2).
  repeat match goal with H : _ /\ _ |- _ => destruct H end. repeat match goal with |- _ /\ _ => split; [assumption|] end. assumption.
Qed.
Lemma total_all : forall c, byte c ->
  (cond_to_code (cond_from c) = Z.land c 0x38 /\ ops8_to_code (ops8_from c) = Z.land c 0x38 /\ rot_to_code (rot_from c) = Z.land c 0x38 /\
   stkreg16_to_code (stkreg16_from c) = Z.land c 0x30 /\ reg16_to_code (reg16_from c) = Z.land c 0x30) /\
  match reg8_try_from c with Some r => reg8_to_code r = Z.land c 7 | None => Z.land c 7 = 6 end /\
  match prefix_try_from c with Some p => prefix_to_code p = c | None => c <> 0xDD /\ c <> 0xFD end /\
  match im_try_from c with Some m => im_to_mode_number m = c | None => ~ 0 <= c <= 2 end.
Proof. intros c Hc. exact (conj (fields_total c Hc) (conj (reg8_total c Hc) (conj (prefix_total c) (im_total c)))). Qed.
Lemma opposite_iff x y : (forall f, byte f -> is_satisfied y f = negb (is_satisfied x f)) <-> cond_to_code y = Z.lxor (cond_to_code x) 8.
Proof. split; [apply opposite_only|]. intros E f _. exact (opposite x y E f). Qed.
