(** C64: the example program of the documentation. *)
From Coq Require Import ZArith Bool List Lia.
From Verif Require Import Base Parse Cpu Flavours Prog Trace Internal Exec Range SafeRun Clock ClockProofs SpecAlu SpecState SpecIsa SpecCycles SpecProgram IsaLink IsaRun Hoare Asm ProgSort SpecDoc.
Import ListNotations.
Open Scope Z_scope.

Definition rom_mem : mem := of_list fib_rom.
Definition doc_ram (lim : Z) : host Z unit unit mem Z :=
  ts_host I32 lim (fun m a => u8 (m a)) (fun m a v _ => mupd m a v) dflt_read_io dflt_write_io dflt_is_irq dflt_irq_data dflt_reti.
Lemma doc_computer lim : computer (doc_ram lim) (fun m a => u8 (m a)).
Proof.
  constructor; [|reflexivity]. constructor; try reflexivity; try (intros; split; reflexivity).
  - intros. apply u8_byte'.
  - intros. cbn. unfold mupd. now destruct (x =? a).
Qed.
Lemma rom_byte a : u8 (rom_mem a) = rom_mem a.
Proof.
  unfold u8. apply Z.mod_small. unfold rom_mem, of_list. destruct (nth_in_or_default (Z.to_nat a) fib_rom 0) as [I| ->]; [|lia]. revert I. generalize (nth (Z.to_nat a) fib_rom 0). intros x I.
  cbn in I. lia.
Qed.
(** Without writes, RAM is as good as ROM. *)
Lemma ram_rom lim {A} (p : prog Z unit unit A) : forall k x m' k' l, runl (doc_ram lim) p rom_mem k = Some (x, m', k', l) -> in_bounds 11 11 (buses l) ->
  runl (doc_bus lim) p tt k = Some (x, tt, k', l).
Proof.
  induction p; intros k0 x0 m' k' l0 E IB; cbn [runl] in *.
  1: { injection E as <- <- <- <-. reflexivity. }
  1: discriminate.
  all: cbn [doc_ram doc_bus ts_host h_is_past_limit h_add_irq h_add_no_mreq h_add_m1 h_add_mreq h_add_io h_add_wait h_as_ts h_read_io h_write_io h_is_irq h_irq_data h_reti h_read_mem
    h_read_mem16 h_read_opcode h_write_mem h_read_debug ts_add_irq ts_add_m1 ts_add_mreq ts_add_io dflt_read_io dflt_write_io dflt_is_irq dflt_irq_data dflt_reti fst snd] in *; cbv zeta in *.
  all: rewrite ?rom_byte in E; change (of_list fib_rom) with rom_mem; rewrite ?rom_byte.
  all: apply cons_log_inv in E; destruct E as (l' & E & ->); change (buses (?e :: l')) with (bus1 e ++ buses l') in IB; apply Forall_app in IB; destruct IB as [IB1 IB].
  17: { cbn in IB1. inversion IB1; subst. lia. }
  all: first [apply H in E; [|exact IB] | apply IHp in E; [|exact IB]]; rewrite E; reflexivity.
Qed.

(** ** The program *)
Ltac rom_rw := repeat match goal with
  | |- context [rom_mem (Zpos ?p)] => let v := eval vm_compute in (rom_mem (Zpos p)) in change (rom_mem (Zpos p)) with v
  | |- context [rom_mem 0] => change (rom_mem 0) with 33 end.
Ltac wside := first [lia | apply lo_range | apply hi_range; lia].
Ltac words := repeat match goal with
  | |- context [hi (word_of ?h ?l)] => rewrite (hi_word h l) by wside
  | |- context [lo (word_of ?h ?l)] => rewrite (lo_word h l) by wside
  end.
Ltac acc_ok := repeat match goal with
  | |- readable _ _ /\ _ => split; [unfold readable; lia|]
  | |- 0 <= _ /\ _ => split; [lia|]
  end.
Ltac refold1 := lazymatch goal with
  | |- ?w (mkArch ?a ?f ?bc ?de ?hl ?af1 ?bc1 ?de1 ?hl1 ?ix ?iy ?sp ?pc ?wz ?i ?r ?im false ?iff2 ?h false None ?q) ?m ?o ?n =>
    let x := lazymatch constr:((af1, bc1, de1, hl1, ix, iy)) with
             | (rAF ?x, rBC ?x, rDE ?x, rHL ?x, rIX ?x, rIY ?x) => x
             | _ => constr:(mkRest af1 bc1 de1 hl1 ix iy) end in
    let S := lazymatch h with true => constr:(@Ht) | false => constr:(@St) end in
    change (w (S _ pc sp a f bc de hl x (mkJunk wz i r im iff2 q)) m o n);
    generalize (mkJunk wz i r im iff2 q); let j := fresh "j" in intros j
    end.
Ltac body := cbn [negb]; cyc; wnum; words; cyc; wnum; rom_rw; wnum; words; acc_ok; try (split; [reflexivity|]; refold1).
Ltac istep := apply will_op; [lia|]; let q := fresh "q" in let j := fresh "j" in intros q j; wnum; rom_rw;
  match goal with |- context [decode ?v] => let i := eval vm_compute in (decode v) in change (decode v) with i end; body; try clear q; try clear j.

Ltac eqn_time H := match type of H with ?A ?t => match goal with |- A ?t' => replace t' with t by (unfold turns; cbn; lia); exact H end end.
Section Fib.
Context {T : Type}.
Variable ch : chip T.
Variable P : arch T -> mem -> outs -> Z -> Prop.
Notation will := (will (WB:=unit) (RB:=unit) ch 11 11 P).
Lemma fib_SS n : fib (S (S n)) = fib (S n) + fib n.
Proof. reflexivity. Qed.
(** At EX DE,HL with [i] turns done and [S k] ahead. *)
Lemma fib_loop k : forall i b sp a f x (j : junk T) o n, 0 <= b < 256 -> Z.of_nat (S k) = turns b ->
  (forall f j, P (Ht 10 sp a f 0 (fib (i + k) mod 65536) (fib (S (i + k)) mod 65536) x j) rom_mem o (n + 28 * turns b - 5 + 4)) ->
  will (St 6 sp a f (word_of b 0) ((fib (S i) - fib i) mod 65536) (fib i mod 65536) x j) rom_mem o n.
Proof.
  assert (ADD : forall i f, fst (s_add16 ((fib (S i) - fib i) mod 65536) (fib i mod 65536) f) = fib (S i) mod 65536).
  { intros i f. cbv beta iota zeta delta [s_add16 fst]. unfold w16. rewrite <- Zplus_mod. f_equal. lia. }
  induction k as [|k IH]; intros i b sp a f x j o n Hb HK HP.
  - assert (b = 1) as -> by (unfold turns in HK; destruct (Z.eqb_spec b 0); lia). istep. istep. istep. istep. apply w_now; [reflexivity|].
    specialize (HP (snd (s_add16 ((fib (S i) - fib i) mod 65536) (fib i mod 65536) f)) j4). rewrite Nat.add_0_r in HP. rewrite ADD.
    eqn_time HP.
  - assert (HB : 0 <= w8 (b - 1) < 256 /\ Z.of_nat (S k) = turns (w8 (b - 1)) /\ w8 (b - 1) <> 0 /\ turns b = turns (w8 (b - 1)) + 1).
    { unfold turns in *. unfold w8. destruct (Z.eqb_spec b 0) as [->|]; [change ((0 - 1) mod 256) with 255; change (255 =? 0) with false; lia|]. rewrite Z.mod_small by lia. destruct (Z.eqb_spec (b - 1) 0); lia. }
    destruct HB as (HB & HK' & NZ & TB). istep. istep. istep. apply Z.eqb_neq in NZ. rewrite NZ. body. rewrite ADD.
    replace (fib i mod 65536) with ((fib (S (S i)) - fib (S i)) mod 65536) by (f_equal; rewrite fib_SS; lia).
    apply IH; [exact HB|exact HK'|]. intros f' j'. specialize (HP f' j'). replace (i + S k)%nat with (S i + k)%nat in HP by lia.
    match type of HP with ?A ?t => match goal with |- A ?t' => replace t' with t by lia; exact HP end end.
Qed.
Lemma fib_start b sp a f de hl x (j : junk T) o n k : 0 <= b < 256 -> Z.of_nat (S k) = turns b ->
  (forall f j, P (Ht 10 sp a f 0 (fib k mod 65536) (fib (S k) mod 65536) x j) rom_mem o (n + 10 + 10 + 28 * turns b - 5 + 4)) ->
  will (St 0 sp a f (word_of b 0) de hl x j) rom_mem o n.
Proof.
  intros Hb HK HP. istep. istep.
  match goal with |- Hoare.will _ _ _ _ (St 6 _ _ ?f _ 1 0 ?x ?j) _ _ ?t =>
    refine (fib_loop k 0 b sp a f x j o t Hb HK _); intros f' j'; specialize (HP f' j');
    match type of HP with ?A ?t => match goal with |- ?A' ?t' => replace t' with t by lia; exact HP end end end.
Qed.
End Fib.

Section Run.
Context {Q T : Type}.
Variables (FL : Flavour Q) (ch : chip T) (absq : Q -> T).
Context (OK : models FL ch absq).
Lemma doc_runs dbg lim c n : 0 <= n < 256 ->
  exists fuel c' l, runl (doc_bus lim) (run_to_halt FL dbg fuel (set_reg B None n (reset FL c))) tt 0 = Some (Some c', tt, 10 + 10 + turns n * (4 + 11 + 13) - 5 + 4, l) /\
    halt c' = true /\ get_reg16 SHL c' = fib (Z.to_nat (turns n)) mod 65536 /\ in_bounds 11 11 (buses l) /\ outs_of (buses l) = [].
Proof.
  intros Hn. assert (EJ : exists j, abs absq (set_reg B None n (reset FL c)) = St 0 65535 255 255 (word_of n 0) 0 0 (mkRest 65535 0 0 0 0 0) j).
  { destruct (reset_state FL absq c) as [j EJ]. exists j. change (abs absq (set_reg B None n (reset FL c))) with (wBC (set8hi (aBC (abs absq (reset FL c))) n) (abs absq (reset FL c))).
    rewrite EJ. assert (E0 : set8hi 0 n = word_of n 0) by (unfold set8hi, mk16, word_of; change (lo8 0) with 0; lia).
    unfold St. cbn [wBC aBC]. rewrite E0. reflexivity. }
  destruct EJ as [j EJ].
  assert (TN : 1 <= turns n <= 256) by (unfold turns; destruct (Z.eqb_spec n 0); lia).
  set (k := Z.to_nat (turns n - 1)). assert (HK : Z.of_nat (S k) = turns n) by (unfold k; lia).
  set (P := fun (a : arch T) (m : mem) (o : outs) (t : Z) => aHL a = fib (S k) mod 65536 /\ o = [] /\ t = 10 + 10 + 28 * turns n - 5 + 4).
  assert (W := fib_start ch P n 65535 255 255 0 0 (mkRest 65535 0 0 0 0 0) j [] 0 k Hn HK (fun f j => conj eq_refl (conj eq_refl eq_refl))).
  assert (HW : wf (set_reg B None n (reset FL c))) by (apply wf_set_reg; [exact Hn|apply wf_reset]).
  destruct (will_halt FL ch absq (models_ok _ _ _ OK) (doc_ram lim) _ (doc_computer lim) 11 11 P dbg _ _ _ _ W _ rom_mem 0 HW EJ rom_byte) as
    (fuel & c' & b' & k' & l & m' & E & _ & HH & _ & (P1 & P2 & P3) & IB).
  exists fuel, c', l. pose proof (ram_rom lim _ _ _ _ _ _ E IB) as E'.
  assert (K : k' = wrap I32 (0 + tsum (clocks l))) by (refine (runl_ts I32 (doc_ram lim) _ eq_refl (ts_host_clock _ _ _ _ _ _ _ _ _) _ _ _ _ _ _ _ E); split; cbn; lia).
  cbn [app] in P2. split; [|split; [exact HH|split; [|split; [exact IB|exact P2]]]].
  - assert (K2 : k' = 10 + 10 + turns n * (4 + 11 + 13) - 5 + 4) by
      (rewrite K, P3; symmetry; apply wrap_unique; [reflexivity| |f_equal; lia]; unfold in_type; cbn [signed I32]; change (2 ^ (bits I32 - 1)) with 2147483648; change (2 ^ bits I32) with 4294967296; lia).
    rewrite E', K2. reflexivity.
  - change (get_reg16 SHL c') with (aHL (abs absq c')). rewrite P1. do 2 f_equal. lia.
Qed.
Lemma doc_exact dbg lim c n : 1 <= n <= 24 ->
  exists fuel c' l, runl (doc_bus lim) (run_to_halt FL dbg fuel (set_reg B None n (reset FL c))) tt 0 = Some (Some c', tt, 10 + 10 + n * (4 + 11 + 13) - 5 + 4, l) /\
    get_reg16 SHL c' = fib (Z.to_nat n).
Proof.
  intros Hn. destruct (doc_runs dbg lim c n ltac:(lia)) as (fuel & c' & l & E & _ & R & _). assert (EN : turns n = n) by (unfold turns; destruct (Z.eqb_spec n 0); lia). rewrite EN in *.
  exists fuel, c', l. split; [exact E|]. rewrite R. apply Z.mod_small.
  assert (F : Forall (fun i => 0 <= fib i < 65536) (seq 0 25)) by (repeat constructor; vm_compute; first [discriminate | reflexivity]).
  apply (proj1 (Forall_forall _ _) F). apply in_seq. lia.
Qed.
End Run.
