(** Symbolic execution of the instruction monad: weakest-precondition rules for every primitive and the
    tactic [sx] applying them. *)
From Coq Require Import ZArith Bool List String Lia.
From Verif Require Import Base Flags Ops Parse Cpu Prog Trace Internal Instr Exec Decode.
Import ListNotations.
Open Scope Z_scope.

Section Rules.
Context {Q TS WB RB : Type}.
Variable FL : Flavour Q.
Notation M := (M Q TS WB RB).
Notation st := (@st Q).
Notation ev := (ev TS WB RB).

Definition wpm {A} (m : M A) (s : st) (P : st -> A -> list ev -> Prop) : Prop :=
  wpl (m s) (fun x l => P (fst x) (snd x) l).

Lemma wpm_bind {A B} (m : M A) (f : A -> M B) s P :
  wpm m s (fun s' a l1 => wpm (f a) s' (fun s'' b l2 => P s'' b (l1 ++ l2)%list)) ->
  wpm (mbind m f) s P.
Proof. unfold wpm, mbind. intros H. now apply wpl_bind. Qed.
Lemma wpm_ret {A} (a : A) s (P : st -> A -> list ev -> Prop) : P s a [] -> wpm (mret a) s P.
Proof. exact (fun H => H). Qed.
Lemma wpm_getc {A} (f : cpu Q -> A) s (P : st -> A -> list ev -> Prop) : P s (f (sc s)) [] -> wpm (getc f) s P.
Proof. exact (fun H => H). Qed.
Lemma wpm_upd f s (P : st -> unit -> list ev -> Prop) : P (mkSt (f (sc s)) (sfl s) (spc s) (spx s)) tt [] -> wpm (upd f) s P.
Proof. exact (fun H => H). Qed.
Lemma wpm_getf s (P : st -> Z -> list ev -> Prop) : P s (sfl s) [] -> wpm getf s P.
Proof. exact (fun H => H). Qed.
Lemma wpm_setf v s (P : st -> unit -> list ev -> Prop) : P (mkSt (sc s) v (spc s) (spx s)) tt [] -> wpm (setf v) s P.
Proof. exact (fun H => H). Qed.
Lemma wpm_getpc s (P : st -> Z -> list ev -> Prop) : P s (spc s) [] -> wpm getpc s P.
Proof. exact (fun H => H). Qed.
Lemma wpm_setpc v s (P : st -> unit -> list ev -> Prop) : P (mkSt (sc s) (sfl s) v (spx s)) tt [] -> wpm (setpc v) s P.
Proof. exact (fun H => H). Qed.
Lemma wpm_setpx v s (P : st -> unit -> list ev -> Prop) : P (mkSt (sc s) (sfl s) (spc s) v) tt [] -> wpm (setpx v) s P.
Proof. exact (fun H => H). Qed.
Lemma wpm_getpx (s : st) (P : st -> option Prefix -> list ev -> Prop) :
  P s (spx s) [] -> wpm (fun s => Ret (s, spx s)) s P.
Proof. exact (fun H => H). Qed.
Lemma wpm_add_no_mreq a n s (P : st -> unit -> list ev -> Prop) : P s tt [KNoMreq a n] -> wpm (add_no_mreq a n) s P.
Proof. exact (fun H => H). Qed.
Lemma wpm_add_m1 a s (P : st -> TS -> list ev -> Prop) : (forall t, P s t [KM1 a t]) -> wpm (add_m1 a) s P.
Proof. exact (fun H => H). Qed.
Lemma wpm_add_mreq a s (P : st -> TS -> list ev -> Prop) : (forall t, P s t [KMreq a t]) -> wpm (add_mreq a) s P.
Proof. exact (fun H => H). Qed.
Lemma wpm_add_io a s (P : st -> TS -> list ev -> Prop) : (forall t, P s t [KIo a t]) -> wpm (add_io a) s P.
Proof. exact (fun H => H). Qed.
Lemma wpm_as_timestamp s (P : st -> TS -> list ev -> Prop) : (forall t, P s t [KTs t]) -> wpm as_timestamp s P.
Proof. exact (fun H => H). Qed.
Lemma wpm_add_wait_states a n s (P : st -> unit -> list ev -> Prop) : P s tt [KWait a n] -> wpm (add_wait_states a n) s P.
Proof. exact (fun H => H). Qed.
Lemma wpm_read_io p t s (P : st -> (Z * option Z) -> list ev -> Prop) : (forall v w, byte v -> P s (v, w) [EIn p t v w]) -> wpm (read_io p t) s P.
Proof. exact (fun H => H). Qed.
Lemma wpm_write_io p v t s (P : st -> (option WB * option Z) -> list ev -> Prop) : (forall b w, P s (b, w) [EOut p v t b w]) -> wpm (write_io p v t) s P.
Proof. exact (fun H => H). Qed.
Lemma wpm_is_irq t s (P : st -> bool -> list ev -> Prop) : (forall b, P s b [EIsIrq t b]) -> wpm (is_irq t) s P.
Proof. exact (fun H => H). Qed.
Lemma wpm_reti p t s (P : st -> option RB -> list ev -> Prop) : (forall b, P s b [EReti p t b]) -> wpm (reti p t) s P.
Proof. exact (fun H => H). Qed.
Lemma wpm_read_mem a t s (P : st -> Z -> list ev -> Prop) : (forall v, byte v -> P s v [ERd a t v]) -> wpm (read_mem a t) s P.
Proof. exact (fun H => H). Qed.
Lemma wpm_read_mem16 a t s (P : st -> Z -> list ev -> Prop) : (forall v, word v -> P s v [ERd16 a t v]) -> wpm (read_mem16 a t) s P.
Proof. exact (fun H => H). Qed.
Lemma wpm_read_opcode p i t s (P : st -> Z -> list ev -> Prop) : (forall v, byte v -> P s v [EOp p i t v]) -> wpm (read_opcode p i t) s P.
Proof. exact (fun H => H). Qed.
Lemma wpm_write_mem a v t s (P : st -> unit -> list ev -> Prop) : P s tt [EWr a v t] -> wpm (write_mem a v t) s P.
Proof. exact (fun H => H). Qed.
Lemma wpm_read_debug a s (P : st -> Z -> list ev -> Prop) : (forall v, byte v -> P s v [ERdDebug a v]) -> wpm (read_debug a) s P.
Proof. exact (fun H => H). Qed.
Lemma wpm_debug (dbg : bool) bytes mn (args : dargs_t) (s : st) (P : st -> unit -> list ev -> Prop) :
  (if dbg then
     match args (spx s) with
     | Some a =>
         let code := (prefix_bytes (spx s) ++ bytes)%list in
         (List.length code <= 4)%nat /\
         P s tt [EDebug (mkDebug code mn (u16 (spc s - Z.of_nat (List.length code))) (spx s) a)]
     | None => False
     end
   else P s tt []) -> wpm (cpu_debug dbg bytes mn args) s P.
Proof.
  unfold wpm, cpu_debug. destruct dbg; [|exact (fun H => H)].
  destruct (args (spx s)) as [a|]; [|contradiction]. cbv zeta. intros [H1 H2].
  apply Nat.leb_le in H1. rewrite H1. exact H2.
Qed.
End Rules.

(** Compound operations, unfolded on the way. *)
Ltac sx_unfold h :=
  lazymatch h with
  | @fetch_next_opcode => unfold fetch_next_opcode | @fetch_next_imm8 => unfold fetch_next_imm8
  | @fetch_next_imm16 => unfold fetch_next_imm16 | @rd_mreq => unfold rd_mreq
  | @wr_mreq => unfold wr_mreq | @opt_wait => unfold opt_wait | @opt_no_mreq => unfold opt_no_mreq
  | @flags_op => unfold flags_op | @ex_af_af_with_flags => unfold ex_af_af_with_flags
  | @pop16 => unfold pop16 | @push16 => unfold push16 | @push2 => unfold push2
  | @push_ss => unfold push_ss | @pop_ss => unfold pop_ss | @apply_reg8 => unfold apply_reg8
  | @dec_bc => unfold dec_bc | @block_transfer => unfold block_transfer
  | @block_search => unfold block_search | @block_in => unfold block_in | @block_out => unfold block_out
  | @acc_op => unfold acc_op | @op8 => unfold op8 | @read_mem8_hl => unfold read_mem8_hl
  | @op8_with_arg => unfold op8_with_arg | @ld_a_from_mem8 => unfold ld_a_from_mem8
  | @memptr_mix_set => unfold memptr_mix_set | @ld_mem8_from_a => unfold ld_mem8_from_a
  | @ex_sp_nn => unfold ex_sp_nn | @instr_rxd => unfold instr_rxd | @op16_reg16 => unfold op16_reg16
  | @write_mem16_addr16 => unfold write_mem16_addr16 | @read_mem16_addr16 => unfold read_mem16_addr16
  | @r_op_w_mem8 => unfold r_op_w_mem8 | @flag_fn => unfold flag_fn
  | @instr_inc_dec8 => unfold instr_inc_dec8 | @instr_inc_dec_x_mem8 => unfold instr_inc_dec_x_mem8
  | @instr_ld_a_from_ir => unfold instr_ld_a_from_ir | @instr_ld_ir_from_a => unfold instr_ld_ir_from_a
  | @instr_ld_a_from_rp => unfold instr_ld_a_from_rp | @instr_ld_rp_from_a => unfold instr_ld_rp_from_a
  | @write_mem8_hl => unfold write_mem8_hl | @write_mem8_ii_d => unfold write_mem8_ii_d
  | @read_mem8_ii_d => unfold read_mem8_ii_d | @io_a_inp_an => unfold io_a_inp_an
  | @io_a_out_an => unfold io_a_out_an | @io_r_inp_bc => unfold io_r_inp_bc
  | @io_r_out_bc => unfold io_r_out_bc | @bitops => unfold bitops | @bitops_qq => unfold bitops_qq
  | @cpu_debug_op8 => unfold cpu_debug_op8 | @cpu_debug_bitops => unfold cpu_debug_bitops
  | @cpu_debug_bitops_ii => unfold cpu_debug_bitops_ii
  | @ok => unfold ok | @brk => unfold brk | @brk_io => unfold brk_io
  | @instr_acc_op => unfold instr_acc_op | @exec_code => unfold exec_code
  end.

Ltac head_of t := lazymatch t with ?f _ => head_of f | _ => t end.

Ltac sx_destruct b :=
  let E := fresh "E" in
  destruct b eqn:E.

(** The impossible arms. *)
Ltac sx_stuck :=
  repeat match goal with
  | H : ed_ok _ = true |- _ => unfold ed_ok in H
  | H : none_ok _ = true |- _ => unfold none_ok in H
  | H : pfx_ok _ = true |- _ => unfold pfx_ok, hl_reg in H
  end;
  repeat match goal with E : ?x = _, H : context [match ?x with _ => _ end] |- _ => rewrite E in H end;
  discriminate.

(** One step.  [dbgtac] deals with calls of the debugger. *)
Ltac sx_step dbgtac :=
  lazymatch goal with
  | |- wpm ?m ?s ?P =>
      lazymatch m with
      | match ?b with _ => _ end =>
          first [ is_var b; destruct b | sx_destruct b ]
      | (fun s0 => Ret (s0, spx s0)) => apply wpm_getpx
      | _ =>
      let h := head_of m in
      lazymatch h with
      | @mbind => apply wpm_bind
      | @mret => apply wpm_ret
      | @getc => apply wpm_getc
      | @upd => apply wpm_upd
      | @getf => apply wpm_getf
      | @setf => apply wpm_setf
      | @getpc => apply wpm_getpc
      | @setpc => apply wpm_setpc
      | @setpx => apply wpm_setpx
      | @add_no_mreq => apply wpm_add_no_mreq
      | @add_m1 => apply wpm_add_m1; let t := fresh "t" in intros t
      | @add_mreq => apply wpm_add_mreq; let t := fresh "t" in intros t
      | @add_io => apply wpm_add_io; let t := fresh "t" in intros t
      | @as_timestamp => apply wpm_as_timestamp; let t := fresh "t" in intros t
      | @add_wait_states => apply wpm_add_wait_states
      | @read_io => apply wpm_read_io; let v := fresh "v" in let w := fresh "w" in intros v w ?
      | @write_io => apply wpm_write_io; let b := fresh "b" in let w := fresh "w" in intros b w
      | @is_irq => apply wpm_is_irq; let b := fresh "b" in intros b
      | @reti => apply wpm_reti; let b := fresh "b" in intros b
      | @read_mem => apply wpm_read_mem; let v := fresh "v" in intros v ?
      | @read_mem16 => apply wpm_read_mem16; let v := fresh "v" in intros v ?
      | @read_opcode => apply wpm_read_opcode; let v := fresh "v" in intros v ?
      | @write_mem => apply wpm_write_mem
      | @read_debug => apply wpm_read_debug; let v := fresh "v" in intros v ?
      | @cpu_debug => apply wpm_debug; dbgtac
      | @stuck => exfalso; sx_stuck
      | @run_ed =>
          match goal with H : byte ?v |- wpm (run_ed _ _ ?v) _ _ => pose proof (ed_ok_all v H) end; unfold run_ed
      | _ => sx_unfold h
      end
      end; cbv beta; cbn [fst snd sc sfl spc spx]; cbv zeta
  end.

(** Calls of the debugger: decide the arguments' shape, then prove the length bound. *)
Ltac dbg_shape :=
  repeat match goal with
  | |- context [if ?b then d_I else d_R] => destruct b
  | |- context [a_maybe_r_x ?g _] => is_var g; destruct g
  | |- context [a_maybe_r_x ?g _] => lazymatch g with Some _ => fail | None => fail | _ => destruct g eqn:? end
  | |- context [a_x_maybe_r _ ?g] => is_var g; destruct g
  | |- context [a_x_maybe_r _ ?g] => lazymatch g with Some _ => fail | None => fail | _ => destruct g eqn:? end
  | |- context [d_r_addr ?g] => is_var g; destruct g
  | |- context [d_r_addr ?g] => lazymatch g with Some _ => fail | None => fail | _ => destruct g eqn:? end
  | |- context [a_b_ii_maybe_r _ _ ?g] => is_var g; destruct g
  end.
Ltac dbg_args :=
  cbn [a0 a1 a2 d_n d_b d_m d_nn d_p d_r d_I d_R d_q d_rr d_qq d_ss d_addr d_addr_ii d_ii
    d_adnn d_port_c d_port d_cc d_r_addr a_maybe_r_x a_x_maybe_r a_b_ii_maybe_r spx prefix_bytes app].
(** With or without a debugger. *)
Ltac dbg_any dbg :=
  destruct dbg; [dbg_shape; (dbg_args; split; [cbn; lia|])|].

(** Dispatch: an instruction runs either in the plain or in the prefixed table. *)
Lemma wpm_exec {Q TS WB RB} (FL : Flavour Q) dbg c (s : st)
    (P : st -> option (exit_reason WB RB) -> list (ev TS WB RB) -> Prop) :
  (spx s = None \/ decode_pfx c = P_IGNORE ->
   wpm (run_none FL dbg c) (mkSt (begun FL (sc s)) (sfl s) (spc s) None) P) ->
  (forall px, spx s = Some px -> decode_pfx c <> P_IGNORE ->
   wpm (run_pfx FL dbg px c) (mkSt (begun FL (sc s)) (sfl s) (spc s) (Some px))
     (fun s' n l => match n with
                    | PRepeat => False
                    | PDone => P (mkSt (sc s') (sfl s') (spc s') None) None l
                    | PKeep => P s' None l
                    end)) ->
  wpm (exec_code FL dbg c) s P.
Proof.
  destruct s as [k f p px]. cbn [sc sfl spc spx]. intros H1 H2. destruct px as [px|].
  - assert (D : decode_pfx c = P_IGNORE \/ decode_pfx c <> P_IGNORE)
      by (destruct (decode_pfx c); auto; right; discriminate).
    destruct D as [D|D].
    + unfold wpm. rewrite exec_code_ignore by exact D. now apply H1; right.
    + unfold wpm. rewrite exec_code_pfx. apply wpm_bind.
      refine (wpl_mono _ _ _ _ (H2 px eq_refl D)).
      intros [s' n] l HP. cbn [fst snd] in *. destruct n; [contradiction| |];
        (unfold wpm; cbn; rewrite app_nil_r; exact HP).
  - unfold wpm. rewrite exec_code_none. now apply H1; left.
Qed.
