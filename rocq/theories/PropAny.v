(** Property C32: conversions between flavours, and [Z80Any]. *)
From Coq Require Import ZArith Bool String Ascii List Lia.
From Verif Require Import Base Flags Ops Parse Cpu Flavours Prog Trace Internal Instr Exec Range Clock Demo Accessors Any SpecAny AnyProofs.
Import ListNotations.
Open Scope string_scope.
Open Scope list_scope.
Open Scope Z_scope.

(** Every register, and everything else but the state of the flavour itself. *)
Theorem C32_into_flavour_keeps : forall Q1 Q2 (f : Q1 -> Q2) (c : cpu Q1),
  (forall x, rget x (into_flavour f c) = rget x c) /\
  (forall q, pget q (into_flavour f c) = pget q c) /\
  ir (into_flavour f c) = ir c /\ r (into_flavour f c) = r c /\
  others (into_flavour f c) = (let '(p, s, m, i, ff, h, px, e, q) := others c in (p, s, m, i, ff, h, px, e, f q)).
Proof. exact @into_flavour_keeps. Qed.
Theorem C32_nmos_bm1_identity : forall c : cpu qstate,
  into_flavour bm1_to_nmos (into_flavour nmos_to_bm1 c) = c /\ into_flavour nmos_to_bm1 (into_flavour bm1_to_nmos c) = c.
Proof.
  exact (fun c => conj (into_flavour_id (fun q => bm1_to_nmos (nmos_to_bm1 q)) c eq_refl)
                       (into_flavour_id (fun q => nmos_to_bm1 (bm1_to_nmos q)) c eq_refl)).
Qed.
(** Through CMOS the flavour state is lost, and nothing else. *)
Theorem C32_through_cmos : forall c : cpu qstate,
  into_flavour cmos_to_nmos (into_flavour nmos_to_cmos c) = set_flavour q_default c /\
  into_flavour cmos_to_bm1 (into_flavour bm1_to_cmos c) = set_flavour q_default c /\
  forall d : cpu unit, into_flavour nmos_to_cmos (into_flavour cmos_to_nmos d) = d /\ into_flavour bm1_to_cmos (into_flavour cmos_to_bm1 d) = d.
Proof. exact through_cmos_all. Qed.
(** A CPU put into a [Z80Any] comes back the same, both by [unwrap_*] and by [From]; unwrapping another variant panics. *)
Theorem C32_any_roundtrip :
  (forall c, unwrap_nmos (nmos_into_any c) = Some c /\ any_into_nmos_cpu (nmos_into_any c) = c /\ unwrap_cmos (nmos_into_any c) = None /\ unwrap_bm1 (nmos_into_any c) = None) /\
  (forall c, unwrap_cmos (cmos_into_any c) = Some c /\ any_into_cmos_cpu (cmos_into_any c) = c /\ unwrap_nmos (cmos_into_any c) = None /\ unwrap_bm1 (cmos_into_any c) = None) /\
  (forall c, unwrap_bm1 (bm1_into_any c) = Some c /\ any_into_bm1_cpu (bm1_into_any c) = c /\ unwrap_nmos (bm1_into_any c) = None /\ unwrap_cmos (bm1_into_any c) = None).
Proof. exact any_roundtrip. Qed.
(** Changing the variant keeps the registers, changing to the own variant keeps everything; the tag tells which it is. *)
Theorem C32_any_convert : forall a : z80any,
  Forall (fun f => (forall x, any_rget x (f a) = any_rget x a) /\ any_others (f a) = any_others a)
    [any_into_nmos; any_into_cmos; any_into_bm1] /\
  any_tag (any_into_nmos a) = "NMOS"%string /\ any_tag (any_into_cmos a) = "CMOS"%string /\ any_tag (any_into_bm1 a) = "BM1"%string /\
  (any_tag a = "NMOS"%string -> any_into_nmos a = a) /\ (any_tag a = "CMOS"%string -> any_into_cmos a = a) /\ (any_tag a = "BM1"%string -> any_into_bm1 a = a) /\
  (is_nmos a = true <-> any_tag a = "NMOS"%string) /\ (is_cmos a = true <-> any_tag a = "CMOS"%string) /\ (is_bm1 a = true <-> any_tag a = "BM1"%string).
Proof. exact any_convert. Qed.
(** Tags are recognized in any letter case, and nothing else is. *)
Theorem C32_with_tag : forall s a, with_tag s = Some a <->
  (upcase s = "NMOS"%string /\ a = new_nmos) \/ (upcase s = "CMOS"%string /\ a = new_cmos) \/ (upcase s = "BM1"%string /\ a = new_bm1).
Proof. exact with_tag_iff. Qed.
(** Whatever a program does with a CPU through the trait [Cpu], it does the same with a [Z80Any] containing it. *)
Theorem C32_forwarding : forall TS WB RB BS CK (Hs : host TS WB RB BS CK) Q A (FL : Flavour Q) (inj : cpu Q -> z80any), variant FL inj ->
  forall (cl : client A) c b k, run Hs (drive any_call cl (inj c)) b k =
    match run Hs (drive (z80_call FL) cl c) b k with
    | Some (x, b, k, ds) => Some (option_map (fun y => (inj (fst y), snd y)) x, b, k, ds)
    | None => None
    end.
Proof. exact @drive_forward. Qed.

(** A program: LD (3412h),A leaves a different MEMPTR in the three variants; ask for it, execute the next one if it is odd. *)
Definition user : client (WB:=Z) (RB:=Z) Z :=
  Call (C_set_acc 0x55) (fun _ => Call (C_execute_next false) (fun _ => Call C_get_memptr (fun v =>
    match v with AnInt n => if Z.odd n then Call (C_execute_next false) (fun _ => Call C_get_pc (fun v => match v with AnInt p => Done (n * 65536 + p) | _ => Done 0 end)) else Done n
    | _ => Done 1 end))).
Example C32_ex_user :
  let m := mupd (mupd (mupd (mupd (fun _ => 0) 0 0x32) 1 0x12) 2 0x34) 3 0xFD in
  let go a := match run (demo 0) (drive any_call user a) m 0 with Some (Some (a', n), m', k, _) => Some (any_tag a', n, m' 0x3412, k) | _ => None end in
  go new_nmos = Some ("NMOS"%string, 0x55130004, 0x55, 17) /\ go new_bm1 = Some ("BM1"%string, 0x00130004, 0x55, 17).
Proof. split; reflexivity. Qed.
Example C32_ex_flavour : (* the Q state is kept between NMOS and BM1, lost through CMOS *)
  let c := set_flavour (mkQ true true) (cpu_new NMOS q_default) in
  any_into_nmos (any_into_bm1 (AnyNMOS c)) = AnyNMOS c /\ any_into_nmos (any_into_cmos (AnyNMOS c)) <> AnyNMOS c /\
  with_tag "nMos" = Some new_nmos /\ with_tag "Z80" = None.
Proof. repeat split; discriminate. Qed.
Definition C32_all := (@C32_into_flavour_keeps, C32_nmos_bm1_identity, C32_through_cmos, C32_any_roundtrip, C32_any_convert, C32_with_tag, @C32_forwarding).
Print Assumptions C32_all.
