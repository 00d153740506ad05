(** Property C36: the disassembler. *)
From Coq Require Import ZArith Bool String List Lia.
From Verif Require Import Base Flags Ops Parse Cpu Flavours Prog Trace Internal Instr Exec Range Clock Demo
  SpecState SpecIsa SpecCycles SpecDebug IsaLink IsaRun Format Disasm SpecDisasm DisasmProofs.
Import ListNotations.
Open Scope string_scope.
Open Scope list_scope.
Open Scope Z_scope.

(** The closure gets exactly the reports that list the memory, in order, until it fails; two iterations per byte are enough. *)
Theorem C36_disasm_memory : forall Q T (FL : Flavour Q) (ch : chip T) absq, models FL ch absq ->
  forall q0 pc0 m, word pc0 -> Forall byte m ->
  exists rs, listing pc0 m rs /\
    forall S E (debug : S -> CpuDebug -> S * option E) s fuel, (2 * List.length m + 2 <= fuel)%nat ->
      disasm_memory FL q0 debug fuel pc0 m s = Some (feed debug rs s).
Proof. intros Q T FL ch absq M. exact (disasm_listing FL ch absq (models_ok _ _ _ M)). Qed.
(** There is one such listing. *)
Theorem C36_listing_unique : forall p m rs, listing p m rs -> forall rs', listing p m rs' -> map summary rs = map summary rs'.
Proof. exact listing_unique. Qed.
Theorem C36_disasm_memory_once : forall Q T (FL : Flavour Q) (ch : chip T) absq, models FL ch absq ->
  forall q0 pc0 m, word pc0 -> Forall byte m ->
  exists rs, listing pc0 m rs /\ forall fuel, (2 * List.length m + 2 <= fuel)%nat ->
    disasm_memory_once FL q0 fuel pc0 m = Some (hd_error rs).
Proof. intros Q T FL ch absq M. exact (once_first FL ch absq (models_ok _ _ _ M)). Qed.
(** No line fails to be formatted. *)
Theorem C36_write_text : forall Q T (FL : Flavour Q) (ch : chip T) absq, models FL ch absq ->
  forall q0 pc0 m, word pc0 -> Forall byte m ->
  exists rs lines, listing pc0 m rs /\ Forall2 (fun d s => fmt_debug LHex (plain false) d = Some s) rs lines /\
    forall f fuel, (2 * List.length m + 2 <= fuel)%nat ->
    disasm_memory_write_text FL q0 fuel pc0 m f = Some ((f ++ String.concat "" (map (fun s => s ++ newline) lines))%string, None).
Proof. intros Q T FL ch absq M. exact (text_lines FL ch absq (models_ok _ _ _ M)). Qed.

(** The unit test, src/disasm.rs:126-142: ignored prefixes are skipped, so is the truncated CB; addresses wrap around. *)
Example C36_ex_tests :
  disasm_memory_write_text NMOS q_default 20 0xFFFE [0x09; 0xdd; 0xfd; 0xdd; 0x09; 0x76; 0; 0xcb] "" =
  Some ("fffeh ADD  HL, BC         [09]" ++ newline ++ "0001h ADD  IX, BC         [dd, 09]" ++ newline ++
        "0003h HALT                [76]" ++ newline ++ "0004h NOP                 [00]" ++ newline, None)%string /\
  disasm_memory_write_text NMOS q_default 20 0xFFFF [0xdd; 0xcb; 0x00; 0x00; 0xfd; 0x00] "" =
  Some ("ffffh RLC  (IX+00h), B    [dd, cb, 00, 00]" ++ newline ++ "0004h NOP                 [00]" ++ newline, None)%string.
Proof. split; vm_compute; reflexivity. Qed.
(** Only the first; and too little fuel is not enough (the loop is really run). *)
Example C36_ex_once :
  option_map (option_map summary) (disasm_memory_once CMOS tt 8 100 [0xFD; 0x21; 0x34; 0x12; 0]) =
    Some (Some (100, [0xFD; 0x21; 0x34; 0x12], Some Yfd, "LD"%string, [DReg16 (Some Yfd) HL; DImm16 0x1234])) /\
  disasm_memory_once CMOS tt 8 100 [0xFD; 0x21; 0x34] = Some None /\ disasm_memory_once CMOS tt 1 100 [0xFD; 0x21; 0x34; 0x12] = None.
Proof. repeat split. Qed.
Definition C36_all := (@C36_disasm_memory, C36_listing_unique, @C36_disasm_memory_once, @C36_write_text).
Print Assumptions C36_all.
