(** Properties C12 and C43: what the debugger is told. *)
From Coq Require Import ZArith Bool String List Lia.
From Verif Require Import Base Flags Ops Parse Cpu Flavours Prog Trace Internal Instr Exec Range Clock Demo
  SpecLog SpecInt SpecDebug StampRun DbgRun.
Import ListNotations.
Open Scope list_scope.
Open Scope Z_scope.

(** ** C12 *)
Theorem C12_execute_instruction : forall Q TS WB RB (FL : Flavour Q) code (c : cpu Q), byte code -> wf c ->
  logs (TS:=TS) (WB:=WB) (RB:=RB) (execute_instruction FL true code c) (fun _ l =>
    let px := used_prefix (prefix c) code in
    if is_prefix code then Forall silent l
    else exists d, reported (pbyte px ++ [code]) (pc c) l d /\ dprefix d = px /\ well_described d).
Proof. intros Q TS WB RB FL code c Hc Hw. exact (wpl_logs _ _ (execute_instruction_rep FL code c Hc Hw)). Qed.
(** [execute_next] either responds to an interrupt, or is halted, or fetches and executes an instruction. *)
Theorem C12_execute_next : forall Q TS WB RB (FL : Flavour Q) (c : cpu Q), wf c ->
  logs (TS:=TS) (WB:=WB) (RB:=RB) (execute_next FL true c) (fun _ l =>
    (exists t l', l = KTs t :: EIsIrq t true :: l' /\ int_rep c l') \/
    if halt c then Forall silent l
    else exists code, byte code /\ first_op l (pc c) code /\
      let px := used_prefix (prefix c) code in
      if is_prefix code then Forall silent l
      else exists d, reported (pbyte px) (pc c) l d /\ dprefix d = px /\ well_described d).
Proof. intros Q TS WB RB FL c Hw. exact (wpl_logs _ _ (execute_next_int_rep FL c Hw)). Qed.
Theorem C12_length : forall d, well_described d -> 1 <= Z.of_nat (List.length (dcode d)) <= 4.
Proof. exact well_described_len. Qed.
(** Interrupt responses: one report too, of the injected instruction. *)
Theorem C12_irq : forall Q TS WB RB (FL : Flavour Q) (c : cpu Q), wf c ->
  logs (TS:=TS) (WB:=WB) (RB:=RB) (irq FL true c) (fun _ l => if is_irq_allowed c then int_rep c l else l = []).
Proof. intros Q TS WB RB FL c Hw. exact (wpl_logs _ _ (irq_rep FL c Hw)). Qed.
Theorem C12_nmi : forall Q TS WB RB (FL : Flavour Q) (c : cpu Q), wf c ->
  logs (TS:=TS) (WB:=WB) (RB:=RB) (nmi FL c) (fun _ l => Forall silent l).
Proof. intros Q TS WB RB FL c Hw. exact (wpl_logs _ _ (nmi_rep FL c Hw)). Qed.

(** LD (IY-2),5 at the end of memory: two steps, one report. *)
Definition reports (m : mem) (c : cpu qstate) (n : nat) :=
  (fix go n c m k := match n with
     | O => Some []
     | S n => match run (demo 0) (execute_next NMOS true c) m k with
              | Some (x, m, k, ds) => option_map (app ds) (go n (fst x) m k)
              | None => None end
     end) n c m 0.
Example C12_ex : reports (poke 0xFFFE [0xFD; 0x36; 0xFE; 0x05] m0) (nm 0xFFFE) 2 =
  Some [mkDebug [0xFD; 0x36; 0xFE; 0x05] "LD" 0xFFFE (Some Yfd)
          (ADouble (DAddr (IndexAddr Yfd (Some (-2)))) (DImm8 5))].
Proof. reflexivity. Qed.
(** An ignored prefix is not reported; JR's operand is the target. *)
Example C12_ex_ignored : reports (poke 0x10 [0xDD; 0x18; 0xFE] m0) (nm 0x10) 2 =
  Some [mkDebug [0x18; 0xFE] "JR" 0x11 None (ASingle (DImm16 0x11))].
Proof. reflexivity. Qed.
(** RST 38h of an interrupt at 0x100 is reported at 0xFF, JP of a mode 2 interrupt at vector 0x0123 at 0x0122. *)
Definition ints (m : InterruptMode) (vec : Z) :=
  match run (rig 0 vec) (irq NMOS true (set_i 1 (set_im m (set_iffs true true (nm 0x100))))) (poke 0x123 [0x34; 0x12] m0) 0 with
  | Some (_, _, _, ds) => ds | None => [] end.
Example C12_ex_irq : ints Mode1 0 = [mkDebug [0xFF] "RST" 0xFF None (ASingle (DImm8 0x38))] /\
  ints Mode2 0x23 = [mkDebug [0xC3; 0x34; 0x12] "JP" 0x122 None (ASingle (DImm16 0x1234))] /\
  ints Mode0 0xDD = [].
Proof. repeat split. Qed.
Definition C12_all := (@C12_execute_instruction, @C12_execute_next, C12_length, @C12_irq, @C12_nmi).
Print Assumptions C12_all.

(** ** C43: the text of a report is the manual's for its bytes and address *)
Theorem C43_execute_next : forall Q TS WB RB (FL : Flavour Q) (c : cpu Q), wf c ->
  logs (TS:=TS) (WB:=WB) (RB:=RB) (execute_next FL true c) (fun _ l => forall d, In (EDebug d) l -> well_described d).
Proof. intros Q TS WB RB FL c Hw. exact (wpl_logs _ _ (execute_next_all FL c Hw)). Qed.
Theorem C43_execute_instruction : forall Q TS WB RB (FL : Flavour Q) code (c : cpu Q), byte code -> wf c ->
  logs (TS:=TS) (WB:=WB) (RB:=RB) (execute_instruction FL true code c) (fun _ l => forall d, In (EDebug d) l -> well_described d).
Proof. intros Q TS WB RB FL code c Hc Hw. exact (wpl_logs _ _ (execute_instruction_all FL code c Hc Hw)). Qed.
Theorem C43_irq : forall Q TS WB RB (FL : Flavour Q) (c : cpu Q), wf c ->
  logs (TS:=TS) (WB:=WB) (RB:=RB) (irq FL true c) (fun _ l => forall d, In (EDebug d) l -> well_described d).
Proof. intros Q TS WB RB FL c Hw. exact (wpl_logs _ _ (irq_all FL c Hw)). Qed.
Example C43_ex : well_described (mkDebug [0xFD; 0x36; 0xFE; 0x05] "LD" 0xFFFE (Some Yfd)
  (ADouble (DAddr (IndexAddr Yfd (Some (-2)))) (DImm8 5))) /\
  ~ well_described (mkDebug [0xFD; 0x36; 0xFE; 0x05] "LD" 0xFFFE (Some Yfd) (ADouble (DAddr (IndexAddr Yfd (Some 2))) (DImm8 5))).
Proof.
  split; [exists 0x36, [0xFE; 0x05]; repeat split; congruence|].
  intros (c & bs & E & _ & _ & _ & _ & H). cbn in E. injection E as <- <-. discriminate.
Qed.
Example C43_ex_texts :
  (map (text None 0xED) [[0x70]; [0xB3]; [0x4B; 1; 2]] = [("IN", [O_pc]); ("OTIR", []); ("LD", [O_g BC; O_mnn])])%string /\
  (map (text None 0xCB) [[0x36]; [0x7E]] = [("SLL", [O_ind HL]); ("BIT", [O_bit 7; O_ind HL])])%string /\
  (text (Some Xdd) 0xCB [3; 0xC0] = ("SET", [O_bit 0; O_idx; O_r B]))%string.
Proof. repeat split. Qed.
Definition C43_all := (@C43_execute_next, @C43_execute_instruction, @C43_irq).
Print Assumptions C43_all.
