(** Every DD/FD-prefixed instruction of the model runs as the specification [SpecIsa] says: same registers, same
    bus accesses, same machine cycles. *)
From Coq Require Import ZArith Bool List String Lia ZifyBool.
From Verif Require Import Base Flags Ops Parse Cpu Flavours Prog Trace Internal Instr Exec Decode Sym Range Safe
  AluProofs Alu16Proofs SpecAlu SpecState SpecIsa Accessors IsaLink IsaArith IsaTac.
Import ListNotations.
Open Scope Z_scope.
Ltac Zify.zify_post_hook ::= Z.div_mod_to_equations.

Section Isa.
Context {Q T TS WB RB : Type}.
Variable FL : Flavour Q.
Variable ch : chip T.
Variable absq : Q -> T.
Hypothesis CH : chip_ok FL ch absq.

Lemma run_pfx_isa px c (k0 : cpu Q) f p : byte c -> decode_pfx c <> P_IGNORE -> wf k0 -> byte f -> word p ->
  wpm (TS:=TS) (WB:=WB) (RB:=RB) (run_pfx FL false px c) (mkSt (begun FL k0) f p (Some px))
    (fun s' n l =>
       match n with
       | PRepeat => False
       | PDone => good absq (step ch (Some px) (decode c) (absq (flavour k0)) (abs2 absq (mkSt (begun FL k0) f p None)))
                    (mkSt (sc s') (sfl s') (spc s') None) None l
       | PKeep => good absq (step ch (Some px) (decode c) (absq (flavour k0)) (abs2 absq (mkSt (begun FL k0) f p None)))
                    s' None l
       end).
Proof.
  intros Hc Hi Hk Hff Hp. rewrite decode_link_pfx by assumption.
  pose proof (pfx_ok_all c Hc) as HE.
  destruct k0 as [af0 afa bc0 de0 hl0 bca dea hla ix0 iy0 pc0 sp0 mp0 lei ir0 im0 i1 i2 hlt pfx r0 q0].
  destruct Hk as [W1 W2 W3 W4 W5 W6 W7 W8 W9 W10 W11 W12 W13 W14 W15].
  unfold begun in *. cbn [af af_alt bc de hl bc_alt de_alt hl_alt ix iy pc sp memptr last_ei ir im iff1 iff2 halt prefix r flavour set_flavour] in *.
  unfold run_pfx, link_pfx. destruct px. all: sx.
  all: try contradiction.
  all: hyps.
  all: params. all: chipq.
  all: red1.
  all: try dec2nd.
  all: red2.
  all: conds.
  all: red2.
  all: chipq.
  all: red2.
  all: close.
Qed.
End Isa.
