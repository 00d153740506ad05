#!/usr/bin/env python3
"""Writes rocq/theories/SpecState.v: the architectural state record with its update functions."""
F = [("A","Z","accumulator"),("F","Z","flags"),("BC","Z",""),("DE","Z",""),("HL","Z",""),
     ("AF'","Z","alternate registers"),("BC'","Z",""),("DE'","Z",""),("HL'","Z",""),
     ("IX","Z","index registers"),("IY","Z",""),("SP","Z",""),("PC","Z",""),("WZ","Z","internal MEMPTR register"),
     ("I","Z","interrupt page"),("R","Z","refresh counter"),("IM","InterruptMode",""),
     ("IFF1","bool",""),("IFF2","bool",""),("HALT","bool","in the halted state"),
     ("EI","bool","the previous instruction was EI"),("PX","option Prefix","pending DD/FD prefix"),
     ("Q","T","latch of the undocumented SCF/CCF behaviour")]
o = []
o.append('''(** The architectural state of a Z80, as seen by the instruction-set specification.
    Generated by tools/gen_specstate.py. *)
From Coq Require Import ZArith Bool.
From Verif Require Import Parse.
Open Scope Z_scope.

Record arch (T : Type) := mkArch {''')
o.append(";\n".join(f"  a{n} : {t}" for n,t,_ in F))
o.append("}.\nArguments mkArch {T}.")
for n,_,_ in F: o.append(f"Arguments a{n} {{T}}.")
o.append("Section Upd.\nContext {T : Type}.\nImplicit Types a : arch T.")
for n,t,_ in F:
    args = " ".join("v" if m==n else f"(a{m} a)" for m,_,_ in F)
    o.append(f"Definition w{n} (v : {t}) a : arch T := mkArch {args}.")
o.append("End Upd.")
open("/verif/rocq/theories/SpecState.v","w").write("\n".join(o)+"\n")
