(** Property C37: the text of a debugger report. *)
From Coq Require Import ZArith Bool String Ascii List Lia.
From Verif Require Import Base Flags Ops Parse Cpu Flavours Prog Trace Internal Instr Exec Range Clock Demo
  SpecLog SpecDebug StampRun DbgRun Format SpecFormat FormatProofs.
Import ListNotations.
Open Scope list_scope.
Open Scope Z_scope.

Theorem C37_execute_next : forall Q TS WB RB (FL : Flavour Q) (c : cpu Q), wf c ->
  logs (TS:=TS) (WB:=WB) (RB:=RB) (execute_next FL true c) (fun _ l => forall d, In (EDebug d) l -> formattable d).
Proof.
  intros Q TS WB RB FL c Hw. exact (logs_formattable _ (execute_next_described FL c Hw)).
Qed.
Theorem C37_execute_instruction : forall Q TS WB RB (FL : Flavour Q) code (c : cpu Q), byte code -> wf c ->
  logs (TS:=TS) (WB:=WB) (RB:=RB) (execute_instruction FL true code c) (fun _ l => forall d, In (EDebug d) l -> formattable d).
Proof.
  intros Q TS WB RB FL code c Hc Hw. exact (logs_formattable _ (execute_instruction_described FL code c Hc Hw)).
Qed.
Theorem C37_irq : forall Q TS WB RB (FL : Flavour Q) (c : cpu Q), wf c ->
  logs (TS:=TS) (WB:=WB) (RB:=RB) (irq FL true c) (fun _ l => forall d, In (EDebug d) l -> formattable d).
Proof.
  intros Q TS WB RB FL c Hw. exact (logs_formattable _ (irq_described FL c Hw)).
Qed.
Theorem C37_columns : forall x f d, well_described d -> typed d ->
  let '(c1, c2, c3) := columns x (f_alt f) in
  exists s1 s2 s3 s4, fmt_debug x f d = Some (s1 ++ s2 ++ s3 ++ s4)%string /\
    String.length s1 = c1 /\ (String.length s1 + String.length s2)%nat = c2 /\
    (String.length s1 + String.length s2 + String.length s3)%nat = c3 /\
    (exists n, s2 = dmnemonic d ++ repc n " ")%string /\ exists s, s4 = ("[" ++ s)%string.
Proof. exact columns_aligned. Qed.

(** The listings of the documentation and of the unit tests (src/cpu/debug.rs:25-56, 543-566). *)
Definition jr : CpuDebug := mkDebug [0x30; 0x03] "JR" 0x0E00 None (ADouble (DCond NC) (DImm16 0x0E05)).
Example C37_ex_tests :
  (map (fun p => fmt_debug (fst p) (plain (snd p)) jr) [(Dec, false); (LHex, false); (UHex, false); (LHex, true); (UHex, true)] =
  [Some " 3584 JR   NC, 3589       [48, 3]"; Some "0e00h JR   NC, 0e05h      [30, 03]"; Some "0E00h JR   NC, 0E05h      [30, 03]";
   Some "0x0e00 JR   NC, 0x0e05      [30, 03]"; Some "0x0E00 JR   NC, 0x0E05      [30, 03]"])%string /\
  (fmt_args LHex (mkFmt true (Some 20%nat) None " "%char None) (dargs jr) = Some "NC, 0x0e05          ")%string /\
  (map (fun p => arg_str (fst p) (snd p) (DAddr (IndexAddr Yfd (Some (-127))))) [(Dec, false); (LHex, false); (UHex, true)] =
   ["(IY-127)"; "(IY-7fh)"; "(IY-0x7F)"])%string.
Proof. repeat split. Qed.
(** The longest operands; with other values the buffer would be too small. *)
Example C37_ex_longest :
  (fmt_debug Dec (plain false) (mkDebug [0xDD; 0xCB; 0x80; 0xF8] "SET" 0xFFFF (Some Xdd) (ABitOpExt 7 (DAddr (IndexAddr Xdd (Some (-128)))) B)) =
   Some "65535 SET  7, (IX-128), B [221, 203, 128, 248]")%string /\
  (fmt_debug UHex (plain true) (mkDebug [0xFD; 0x36; 0x80; 0xFF] "LD" 0xFFFF (Some Yfd) (ADouble (DAddr (IndexAddr Yfd (Some (-128)))) (DImm8 255))) =
   Some "0xFFFF LD   (IY-0x80), 0xFF [FD, 36, 80, FF]")%string /\
  fmt_args LHex (mkFmt true (Some 15%nat) None " "%char None) (ADouble (DImm16 32767) (DAddr (ImmAddr 65535))) = None.
Proof. repeat split. Qed.
Definition C37_all := (@C37_execute_next, @C37_execute_instruction, @C37_irq, C37_columns).
Print Assumptions C37_all.
