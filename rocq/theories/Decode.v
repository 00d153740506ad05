(** Facts about the dispatch tables of [Instr.v]: no byte falls through to the impossible arms, and the
    dispatch of a prefixed op-code. *)
From Coq Require Import ZArith Bool List String Lia.
From Verif Require Import Base Flags Ops Parse Cpu Prog Internal Instr AluProofs.
Import ListNotations.
Open Scope Z_scope.

Definition none_ok (c : Z) : bool := match decode_none c with M_NONE => false | _ => true end.
Definition ed_ok (c : Z) : bool := match decode_ed c with E_NONE => false | _ => true end.
Definition hl_reg (g : option Reg8) : bool := match g with Some H | Some L | None => true | _ => false end.
Definition pfx_ok (c : Z) : bool :=
  match decode_pfx c with
  | P_NONE => false
  | P_LD_q_q =>
      match reg8_b5_3 c, reg8_b2_0 c with
      | Some dst, Some src =>
          match dst, src with H, _ | L, _ | _, H | _, L => true | _, _ => false end
      | None, None => false
      | _, _ => true
      end
  | P_LD_q_n => match reg8_b5_3 c with Some H | Some L => true | _ => false end
  | P_OPS_q => hl_reg (reg8_b2_0 c)
  | P_INC8 | P_DEC8 => hl_reg (reg8_b5_3 c)
  | _ => true
  end.
Lemma none_ok_all c : byte c -> none_ok c = true.
Proof. apply (all1_spec none_ok). vm_compute. reflexivity. Qed.
Lemma ed_ok_all c : byte c -> ed_ok c = true.
Proof. apply (all1_spec ed_ok). vm_compute. reflexivity. Qed.
Lemma pfx_ok_all c : byte c -> pfx_ok c = true.
Proof. apply (all1_spec pfx_ok). vm_compute. reflexivity. Qed.

(** The bit number of BIT/RES/SET. *)
Definition bitnum_of (o : BitOps) : Z := match o with BRot _ _ => 0 | BBit b _ | BRes b _ | BSet b _ => b end.
Lemma bitnum_range c : 0 <= parse_code_bitnum c < 8.
Proof.
  unfold parse_code_bitnum. change 7 with (Z.ones 3).
  rewrite Z.land_ones by lia. apply Z.mod_pos_bound. lia.
Qed.
Lemma bitops_num c : 0 <= bitnum_of (bitops_from c) < 8.
Proof.
  unfold bitops_from. pose proof (bitnum_range c).
  destruct (Z.land c 192 =? 0), (Z.land c 192 =? 64), (Z.land c 192 =? 128); cbn [bitnum_of]; lia.
Qed.
Lemma bitops_num_eq c o : bitops_from c = o -> 0 <= bitnum_of o < 8.
Proof. intros <-. apply bitops_num. Qed.

Section Dispatch.
Context {Q TS WB RB : Type}.
Variable FL : Flavour Q.
Variable dbg : bool.
Notation exec_code := (exec_code (TS:=TS) (WB:=WB) (RB:=RB) FL dbg).
Notation run_none := (run_none (TS:=TS) (WB:=WB) (RB:=RB) FL dbg).
Notation run_pfx := (run_pfx (TS:=TS) (WB:=WB) (RB:=RB) FL dbg).

Definition begun (k : cpu Q) : cpu Q := set_flavour (begin_instruction FL (flavour k)) k.
Lemma exec_code_none c k f p :
  exec_code c (mkSt k f p None) = run_none c (mkSt (begun k) f p None).
Proof. reflexivity. Qed.
Lemma exec_code_ignore c k f p px : decode_pfx c = P_IGNORE ->
  exec_code c (mkSt k f p (Some px)) = run_none c (mkSt (begun k) f p None).
Proof.
  intros E. unfold Instr.exec_code, mbind. cbn [upd pbind fst snd spx].
  unfold Instr.run_pfx. rewrite E. reflexivity.
Qed.
Lemma exec_code_pfx c k f p px :
  exec_code c (mkSt k f p (Some px)) =
  mbind (run_pfx px c) (fun n => match n with PRepeat => run_none c | PDone => mbind (setpx None) (fun _ => ok)
                                            | PKeep => ok end) (mkSt (begun k) f p (Some px)).
Proof. reflexivity. Qed.
End Dispatch.
