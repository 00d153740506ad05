(** Property C60: the crate's own unit tests, translated from their text, hold of the model. *)
From Coq Require Import ZArith Bool String List.
From Verif Require Import Base Flags Parse Cpu Flavours Prog Exec Any Format Opconsts Disasm DebugText Clock
  RegPair Ops UnitScript UnitOps UnitProofs UnitTrait UnitCpu.
Import ListNotations.
Open Scope string_scope.
Open Scope list_scope.
Open Scope Z_scope.

(** The 18 tests of src/z80/ops.rs and src/cpu/flags.rs. *)
Theorem C60_ops : Forall (fun t => passes t = true) all_scripts.
Proof. exact all_pass. Qed.
(** A script does fail when a value or a flag is another one. *)
Example C60_ops_ex : List.length all_scripts = 18%nat /\
  passes [Set_ 1; Call (byte_of (adc 1 2)) [4]; Check (Z.eqb 0)] = true /\
  passes [Set_ 0; Call (byte_of (adc 1 2)) [4]; Check (Z.eqb 0)] = false /\
  passes [Set_ 1; Call (byte_of (adc 1 2)) [4]; Check (Z.eqb 1)] = false.
Proof. vm_compute. auto. Qed.

(** [z80_methods], [z80any_methods] (tests.rs:208-229). *)
Theorem C60_methods :
  holds (z80_subject NMOS (q_text "NMOS")) "" "" "NMOS { flags_modified: false, last_flags_modified: false }"
    z80_test (cpu_default q_default) /\
  holds (z80_subject CMOS (fun _ => "CMOS")) "" "" "CMOS" z80_test (cpu_default tt) /\
  holds (z80_subject BM1 (q_text "BM1")) "" "" "BM1 { flags_modified: false, last_flags_modified: false }"
    z80_test (cpu_default q_default) /\
  holds any_subject "NMOS(" ")" "NMOS { flags_modified: false, last_flags_modified: false }" z80_test (AnyNMOS (cpu_default q_default)) /\
  holds any_subject "CMOS(" ")" "CMOS" z80_test (AnyCMOS (cpu_default tt)) /\
  holds any_subject "BM1(" ")" "BM1 { flags_modified: false, last_flags_modified: false }" z80_test (AnyBM1 (cpu_default q_default)).
Proof. repeat split; vm_compute; reflexivity. Qed.
(** 144 steps; a script is not satisfied by anything else. *)
Example C60_methods_ex : List.length z80_test = 144%nat /\
  ~ holds any_subject "NMOS(" ")" "" [Want (C_set_sp 0x1234) AnUnit; Want C_get_sp (AnInt 0x1235)] new_nmos.
Proof. split; [reflexivity|]. vm_compute. discriminate. Qed.

(** tests/flav_test.rs:113-158: the five programs on the three flavours, transcribed by hand. *)
Theorem C60_flavours :
  (test1 NMOS q_default = Some (0x1234, 0) /\ test1 CMOS tt = Some (0x1234, 0xFF) /\ test1 BM1 q_default = Some (0x1234, 0)) /\
  (test2345 NMOS q_default 0x06 = Some (0xFF00, FZ + FXY + FH + FPV) /\
   test2345 CMOS tt 0x06 = Some (0xFF00, FZ + FXY + FH + FPV) /\ test2345 BM1 q_default 0x06 = Some (0, FZ + FH + FPV)) /\
  (test2345 NMOS q_default 0x0E = Some (0xFF01, FZ + FXY + FPV + FC) /\
   test2345 CMOS tt 0x0E = Some (0xFF01, FZ + FPV + FC) /\ test2345 BM1 q_default 0x0E = Some (0xFF01, FZ + FXY + FPV + FC)) /\
  (test2345 NMOS q_default 0x17 = Some (0xFF01, FZ + FPV + FC) /\
   test2345 CMOS tt 0x17 = Some (0xFF01, FZ + FPV + FC) /\ test2345 BM1 q_default 0x17 = Some (0xFF01, FZ + FPV + FC)) /\
  (test2345 NMOS q_default 0x1F = Some (0x0038, FZ) /\
   test2345 CMOS tt 0x1F = Some (0x0038, FZ + FPV) /\ test2345 BM1 q_default 0x1F = Some (0x0038, FZ + FPV)).
Proof. repeat split; vm_compute; reflexivity. Qed.
(** The loop ends with HALT, not with the fuel. *)
Example C60_flavours_ex :
  option_map (fun x => (halt (fst x), pc (fst x))) (execute_test NMOS q_default 0x1F) = Some (true, 0x38) /\
  execute_test NMOS q_default 0x24 <> None.
Proof. vm_compute. split; [reflexivity|discriminate]. Qed.

(** Texts: [debug_args_works] (debug.rs:449-585), [opconst_opcodes], [opconst_base] (lib.rs:338-421), [z80_debug]
    (tests.rs:232-289).  [debug_opcode] (lib.rs:317-335) wants the listing to have exactly one line. *)
Definition lines_of (memory : list Z) : option (list string) :=
  option_map fst (disasm_memory (E := unit) NMOS q_default
    (fun l d => (l ++ [(dmnemonic d ++ " " ++ args_str Dec false (dargs d))%string], None)) 8 0 memory []).
Definition opcode_ok (t : nat * list Z * string * option (Z * Z * Z)) : Prop :=
  let '(len, code, text, match_) := t in
  lines_of (firstn len (code ++ repeat 0 (4 - List.length code))) = Some [text] /\
  match match_ with Some (o, mask, base) => Z.land o mask = base | None => True end.
Theorem C60_texts :
  Forall (fun t => fst t = snd t) debug_args_works /\ Forall opcode_ok opconst_opcodes /\ Forall opcode_ok opconst_base /\
  debug_text Dec true (cpu_new NMOS q_default) =
"Z80 {
    pc: 0,
    sp: 65535,
    af: 65535,
    bc: 0,
    de: 0,
    hl: 0,
    af': 65535,
    bc': 0,
    de': 0,
    hl': 0,
    ix: 0,
    iy: 0,
    ir: 0,
    r: 0,
    im: Mode0,
    iff1: false,
    iff2: false,
    halt: false,
    ei: false,
    mp: 0,
    prefix: None,
}" /\
  any_debug_text LHex true new_nmos =
"NMOS(
    Z80 {
        pc: 0x0,
        sp: 0xffff,
        af: 0xffff,
        bc: 0x0,
        de: 0x0,
        hl: 0x0,
        af': 0xffff,
        bc': 0x0,
        de': 0x0,
        hl': 0x0,
        ix: 0x0,
        iy: 0x0,
        ir: 0x0,
        r: 0x0,
        im: Mode0,
        iff1: false,
        iff2: false,
        halt: false,
        ei: false,
        mp: 0x0,
        prefix: None,
    },
)".
Proof.
  split; [repeat constructor|]. split; [repeat constructor|]. split; [repeat constructor|].
  split; vm_compute; reflexivity.
Qed.
Example C60_texts_ex : List.length debug_args_works = 77%nat /\ List.length opconst_opcodes = 19%nat /\
  List.length opconst_base = 48%nat /\ lines_of [0x18; 0; 0] = Some ["JR 2"; "NOP "].
Proof. vm_compute. auto. Qed.

(** [registers_work] (registers.rs:339-380; transcribed by hand): the pair after each change, its two bytes in the order of the array, and what
    [dec16_is_zero] says. *)
Theorem C60_registers :
  (rp_get16 (RP 0 0) = 0 /\ rp_get (RP 0 0) = (0, 0) /\ rp_get8hi (RP 0 0) = 0 /\ rp_get8lo (RP 0 0) = 0) /\
  map (fun n => rp_steps (firstn n [OSet16 0xA542; OSet 0xFF 0x33; OSet8hi 1; OSet8lo 255; OInc16; ODec16; OSet16 2; ODecZero; ODecZero;
                                    ODecZero; OAdd16 2; OAdd16 0xFFFF]) (RP 0 0)) (seq 1 12) =
  [Some (RP 0x42 0xA5, [None]); Some (RP 0x33 0xFF, [None; None]); Some (RP 0x33 1, [None; None; None]);
   Some (RP 255 1, [None; None; None; None]); Some (RP 0 2, [None; None; None; None; None]);
   Some (RP 255 1, [None; None; None; None; None; None]); Some (RP 2 0, [None; None; None; None; None; None; None]);
   Some (RP 1 0, [None; None; None; None; None; None; None; Some false]);
   Some (RP 0 0, [None; None; None; None; None; None; None; Some false; Some true]);
   Some (RP 255 255, [None; None; None; None; None; None; None; Some false; Some true; Some false]);
   Some (RP 1 0, [None; None; None; None; None; None; None; Some false; Some true; Some false; None]);
   Some (RP 0 0, [None; None; None; None; None; None; None; Some false; Some true; Some false; None; None])] /\
  rp_from_array 1 2 = rp_from_tuple (2, 1) /\ rp_from_i16 (-32768) = rp_from_u16 32768 /\
  rp_op16 (fun x => (u8 x, 7)) (rp_from_tuple (0, 1)) = rp_from_array 7 1 /\
  rp_op8hi (fun x => x + 1) (rp_from_tuple (0, 2)) = Some (rp_from_array 2 1) /\
  rp_op8lo (fun x => x + 1) (rp_from_tuple (2, 0)) = Some (rp_from_array 1 2).
Proof. vm_compute. auto 12. Qed.

(** [flavour_works], [flavour_conversion] (flavours.rs:234-304), [z80any] (any.rs:434-468), transcribed by hand;
    without the three comparisons of [Z80Any::from], which the model has as the constructors.  The four rows of a flavour
    are: at first, after [begin_instruction], then [flags_modified], then [begin_instruction]. *)
Definition q_rows (FL : Flavour qstate) : list (bool * bool * Z) :=
  map (fun q => (q_last q, q_modified q, get_q FL q 0 255))
    (let q0 := q_default in let q1 := begin_instruction FL q0 in let q2 := flags_modified FL q1 in
     [q0; q1; q2; begin_instruction FL q2]).
Theorem C60_kinds :
  (memptr_mix NMOS 1 1 = (1, 2) /\ memptr_mix NMOS 1 255 = (1, 0) /\ memptr_mix CMOS 1 1 = (1, 2) /\
   memptr_mix CMOS 1 255 = (1, 0) /\ memptr_mix BM1 1 1 = (0, 2) /\ memptr_mix BM1 1 255 = (0, 0)) /\
  q_rows NMOS = [(false, false, 255); (false, false, 255); (false, true, 255); (true, false, 0)] /\
  q_rows BM1 = [(false, false, 255); (false, false, 255); (false, true, 255); (true, false, 0)] /\
  (get_q CMOS tt 0 255 = 0 /\ get_q CMOS (begin_instruction CMOS tt) 1 255 = 1 /\
   get_q CMOS (flags_modified CMOS (begin_instruction CMOS tt)) 2 255 = 2 /\
   get_q CMOS (begin_instruction CMOS (flags_modified CMOS (begin_instruction CMOS tt))) 3 255 = 3) /\
  into_flavour nmos_to_bm1 (into_flavour cmos_to_nmos (into_flavour bm1_to_cmos (cpu_default q_default))) = cpu_default q_default /\
  (with_tag "NMOS" = Some new_nmos /\ any_tag new_nmos = "NMOS" /\ unwrap_nmos new_nmos = Some (cpu_new NMOS q_default) /\
   [is_nmos new_nmos; is_cmos new_nmos; is_bm1 new_nmos] = [true; false; false]) /\
  (any_into_cmos new_nmos = new_cmos /\ with_tag "CMOS" = Some new_cmos /\ any_tag new_cmos = "CMOS" /\
   unwrap_cmos new_cmos = Some (cpu_new CMOS tt) /\ [is_nmos new_cmos; is_cmos new_cmos; is_bm1 new_cmos] = [false; true; false]) /\
  (any_into_bm1 new_cmos = new_bm1 /\ with_tag "BM1" = Some new_bm1 /\ any_tag new_bm1 = "BM1" /\
   unwrap_bm1 new_bm1 = Some (cpu_new BM1 q_default) /\ [is_nmos new_bm1; is_cmos new_bm1; is_bm1 new_bm1] = [false; false; true]) /\
  (any_into_nmos new_bm1 = new_nmos /\ any_tag new_nmos = "NMOS").
Proof. repeat split. Qed.

(** [ts_counter] (host.rs:569-596), the values of [forward_host_clock_works] (macros.rs:542-582) on the counter itself, not through the wrappers and [default_host_impl]
    (host.rs:534-558), transcribed by hand. *)
Theorem C60_host :
  (map (fun c => map (fun l => ts_is_past_limit l c) [0; 1; 2]) [0; 1] = [[true; false; false]; [true; true; false]]) /\
  (ts_add_irq I32 0 0 = (6, 2) /\ ts_add_no_mreq I32 0 0 3 = 3 /\ ts_add_io I32 0 0 = (4, 1) /\
   ts_add_mreq I32 0 0 = (3, 3) /\ ts_add_m1 I32 0 0 = (4, 4) /\ ts_add_wait I32 0 0 7 = 7) /\
  (forall t, In t [100; 120] ->
     map (fun l => ts_is_past_limit l t) [t - 1; t; t + 1] = [true; true; false] /\
     ts_add_irq I32 t 0 = (t + 6, t + 2) /\ ts_add_no_mreq I32 (t + 6) 0 1 = t + 7 /\ ts_add_m1 I32 (t + 7) 0 = (t + 11, t + 11) /\
     ts_add_mreq I32 (t + 11) 0 = (t + 14, t + 14) /\ ts_add_io I32 (t + 14) 0 = (t + 18, t + 15) /\
     ts_add_wait I32 (t + 18) 0 2 = t + 20) /\
  (forall val, h_read_io dummy tt val 0 = (tt, (255, None)) /\ h_write_io dummy tt val 0 0 = (tt, (None, None)) /\
     h_is_irq dummy tt 0 = (tt, false) /\ h_irq_data dummy tt val 0 = (tt, (RST_38H_OPCODE, None)) /\
     h_reti dummy tt val 0 = (tt, None) /\ h_read_mem dummy tt val 0 = (tt, 255) /\ h_read_mem16 dummy tt val 0 = (tt, 0xFFFF) /\
     h_read_opcode dummy tt val val 0 = (tt, 255) /\ h_read_debug dummy tt val = (tt, 255)).
Proof.
  split; [reflexivity|]. split; [vm_compute; auto 9|].
  split; [intros t [<- | [<- | []]]; vm_compute; auto 9|]. intros val. repeat split.
Qed.

Definition C60_all := (C60_ops, C60_methods, C60_flavours, C60_texts, C60_registers, C60_kinds, C60_host).
Print Assumptions C60_all.
