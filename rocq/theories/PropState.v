(** Properties C16, C29 and C30. *)
From Coq Require Import ZArith Bool List String Lia.
From Verif Require Import Base Flags Ops Parse Cpu Flavours Prog Trace Internal Instr Exec Decode Range Clock Accessors PropSafety.
Import ListNotations.
Open Scope Z_scope.

(** ** C16 *)
Theorem C16_irq : forall Q TS WB RB (FL : Flavour Q) dbg (c : cpu Q)
    BS CK (Hs : host TS WB RB BS CK) b k c' o b' k' ds,
  run Hs (irq FL dbg c) b k = Some ((c', o), b', k', ds) ->
  (o = None <-> ~ (iff1 c = true /\ prefix c = None /\ last_ei c = false)) /\
  (o = None -> c' = c /\ b' = b /\ k' = k /\ ds = []).
Proof. intros Q TS WB RB. exact irq_refused. Qed.
Theorem C16_nmi : forall Q TS WB RB (FL : Flavour Q) (c : cpu Q)
    BS CK (Hs : host TS WB RB BS CK) b k c' o b' k' ds,
  run Hs (nmi FL c) b k = Some ((c', o), b', k', ds) ->
  (o = false <-> ~ (prefix c = None /\ last_ei c = false)) /\
  (o = false -> c' = c /\ b' = b /\ k' = k /\ ds = []).
Proof. intros Q TS WB RB. exact nmi_refused. Qed.
(** After EI neither is accepted; two instructions later (EI; NOP) the NMI goes to 0x66. *)
Example C16_ex :
  let m := mupd (fun _ => 0) 100 0xFB in
  let go p := match run (demo 0) p m 0 with Some (x, _, k, _) => Some (pc (fst x), iff1 (fst x), snd x, k) | None => None end in
  let ei := execute_next NMOS false (cpu0 100) in
  go (pbind ei (fun x => nmi NMOS (fst x))) = Some (101, true, false, 4) /\
  go (pbind ei (fun x => pbind (execute_next NMOS false (fst x)) (fun y => nmi NMOS (fst y))))
    = Some (0x66, false, true, 19).
Proof. split; reflexivity. Qed.
Print Assumptions C16_irq. Print Assumptions C16_nmi.

(** ** C29 *)
Theorem C29_registers : forall Q (FL : Flavour Q) x (c : cpu Q),
  rget x (reset FL c) = match x with rA | rF | rA' | rF' => 255 | _ => 0 end.
Proof. intros Q. exact reset_regs. Qed.
(** PC, SP, MEMPTR, interrupt mode, flip-flops, HALT, prefix, after-EI, flavour state. *)
Theorem C29_others : forall Q (FL : Flavour Q) (c : cpu Q),
  others (reset FL c) = (0, 65535, 0, Mode0, (false, false), false, None, false, flavour_reset FL (flavour c)).
Proof. intros Q. exact reset_others. Qed.
Theorem C29_history_independent : forall (c1 c2 : cpu qstate) (d1 d2 : cpu unit),
  reset NMOS c1 = reset NMOS c2 /\ reset BM1 c1 = reset BM1 c2 /\ reset CMOS d1 = reset CMOS d2.
Proof. exact reset_const. Qed.
Example C29_ex : reset NMOS (set_i 7 (do_halt (enable_interrupts (cpu0 0x1234)))) = cpu_new NMOS q_default
  /\ set_i 7 (do_halt (enable_interrupts (cpu0 0x1234))) <> cpu_new NMOS q_default.
Proof. split; [reflexivity|discriminate]. Qed.
Print Assumptions C29_registers. Print Assumptions C29_others. Print Assumptions C29_history_independent.

(** ** C30 *)
Theorem C30_get_set : forall Q x y v (c : cpu Q), wf c -> byte v ->
  rget y (rset x v c) = if reg_eq_dec x y then v else rget y c.
Proof. intros Q. exact rget_rset. Qed.
Theorem C30_set_frame : forall Q x v (c : cpu Q), others (rset x v c) = others c.
Proof. intros Q. exact others_rset. Qed.
Theorem C30_pair_is_halves : forall Q q (c : cpu Q), pget q c = 256 * rget (hi_of q) c + rget (lo_of q) c.
Proof. intros Q. exact pget_rget. Qed.
Theorem C30_pair_set : forall Q q y v (c : cpu Q), wf c -> word v ->
  rget y (pset q v c) = if reg_eq_dec (hi_of q) y then v / 256
                        else if reg_eq_dec (lo_of q) y then v mod 256 else rget y c.
Proof. intros Q. exact rget_pset. Qed.
Theorem C30_pair_frame : forall Q q v (c : cpu Q), others (pset q v c) = others c.
Proof. intros Q. exact others_pset. Qed.
Theorem C30_prefix_only_for_h_l : forall Q g p (c : cpu Q), g <> H -> g <> L ->
  get_reg g p c = get_reg g None c /\ forall v, set_reg g p v c = set_reg g None v c.
Proof. intros Q. exact get_reg_prefix. Qed.
Theorem C30_reg2 : forall Q s (c : cpu Q),
  (get_reg2 s c = (get_reg16 s c / 256, get_reg16 s c mod 256) /\
   get_alt_reg2 s c = (get_alt_reg16 s c / 256, get_alt_reg16 s c mod 256)) /\
  forall h l, set_reg2 s h l c = set_reg16 s (256 * h + l) c.
Proof. exact (fun Q s c => conj (pair2 s c) (fun h l => set2 s h l c)). Qed.
Theorem C30_exchange_involutive : forall Q (c : cpu Q),
  exx (exx c) = c /\ ex_af_af (ex_af_af c) = c /\ ex_de_hl (ex_de_hl c) = c.
Proof. exact (fun Q c => conj (exx_exx c) (conj (ex_af_af2 c) (ex_de_hl2 c))). Qed.
(** get_ir is I followed by R. *)
Theorem C30_get_ir : forall Q (c : cpu Q), wf c -> get_ir c = 256 * rget rI c + rget rR c.
Proof. intros Q. exact get_ir_val. Qed.
Example C30_ex :
  let c := rset rR 0xFF (rset rI 0x3E (pset qIX 0x1234 (cpu0 0))) in
  rget rIXl (rset rIXh 0x77 c) = 0x34 /\ rget rIXh (rset rIXh 0x77 c) = 0x77 /\ get_ir (inc_r c) = 0x3E80.
Proof. repeat split. Qed.
Print Assumptions C30_get_set. Print Assumptions C30_set_frame. Print Assumptions C30_pair_is_halves.
Print Assumptions C30_pair_set. Print Assumptions C30_pair_frame. Print Assumptions C30_prefix_only_for_h_l.
Print Assumptions C30_reg2. Print Assumptions C30_exchange_involutive. Print Assumptions C30_get_ir.
