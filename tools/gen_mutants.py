#!/usr/bin/env python3
"""The mutants: (id, file, definition, old text, new text, claim that becomes wrong, properties expected to fail)."""
import json, sys
L = []
def m(i, f, d, old, new, claim, props): L.append(dict(id=i, file=f, definition=d, old=old, new=new, claim=claim, expect=props.split()))
# --- late files (quick)
m('ser1','Serde.v','de_q','Some (mkQ (or_false (acc 0%nat)) (or_false (acc 1%nat)))','Some (mkQ (or_false (acc 1%nat)) (or_false (acc 0%nat)))','the two Q flags are read back exchanged','C33')
m('ser2','Serde.v','de_regs','[("bc", 0%nat); ("de", 1%nat); ("hl", 2%nat)]','[("bc", 0%nat); ("de", 2%nat); ("hl", 1%nat)]','DE and HL are exchanged when read from a map','C33')
m('ser3','Serde.v','de_pair','lo <~ de_u8 vl; hi <~ de_u8 vh; Some (mk16 hi lo)','lo <~ de_u8 vl; hi <~ de_u8 vh; Some (mk16 lo hi)','a pair read from a sequence of two bytes has its bytes exchanged','C33')
m('ser4','Serde.v','visit_map','let r := or_else (g_u8 (a FR)) (lo8 ir) in','let r := or_else (g_u8 (a FR)) 0 in','a missing r is 0 instead of the low byte of ir','C33')
m('ser5','Serde.v','visit_map','let v := match force with Some t => t | None =>','let v := match force with Some t => or_else (g_str (a FType)) t | None =>','a map with the tag of another flavour panics','C33')
m('ser6','Serde.v','read_fields','match a f with Some _ => None | None => x <~ next_value f v; read_fields','match a f with Some _ => read_fields l a | None => x <~ next_value f v; read_fields','a field given twice is accepted','C33')
m('ser7','Serde.v','de_unit','q <~ de_q v; Some (nmos_to_cmos q)','match v with VSeq _ [] => Some tt | VMap [] => Some tt | _ => None end','a CMOS CPU cannot be read from what an NMOS CPU wrote','C33')
m('any1','Any.v','any_set_sp','any_upd a (fun Q FL c => set_sp v c)','any_upd a (fun Q FL c => set_pc v c)','Z80Any::set_sp sets PC','C32')
m('opc1','Opconsts.v','cond_to_code','PO => 0x20 | PE => 0x28','PO => 0x28 | PE => 0x20','the codes of PO and PE are exchanged','C35')
m('opc2','Opconsts.v','JR_CC_OPMASK','JR_CC_OPMASK : Z := 0xE7','JR_CC_OPMASK : Z := 0xC7','the JR cc mask also matches other instructions','C35')
m('opc3','Opconsts.v','cond_from_str','if s =? "P" then Some CP_ else if s =? "M" then Some CM','if s =? "P" then Some CM else if s =? "M" then Some CP_','the texts P and M are read exchanged','C35')
m('dis1','Disasm.v','on_debug','Some _ => (cursor - 1)%nat | None => cursor end','Some _ => cursor | None => cursor end','the cursor is one too far after a prefixed instruction','C36')
m('dis2','Disasm.v','disasm_loop','if (List.length memory <? cursor)%nat then Some (s, None)','if (List.length memory <=? cursor)%nat then Some (s, None)','an instruction that ends with the slice is not reported','C36')
m('dis3','Disasm.v','disasm_loop','else disasm_loop fuel pc0 memory (reset FL c) cursor tsc s','else disasm_loop fuel pc0 memory c cursor tsc s','a halted CPU is not reset: the disassembler does not terminate after HALT','C36')
m('fmt1','Format.v','fmt_args','match x with Dec => 14 | _ => 15 end','match x with Dec => 12 | _ => 13 end','the text buffers are too small','C37')
m('fmt2','Format.v','addr_hex','"(" ++ prefix_str px ++ "-" ++ hex up 2 (u8 (0 - u8 d)) ++ "h)"','"(" ++ prefix_str px ++ "-" ++ hex up 2 (u8 d) ++ "h)"','a negative displacement is printed as its two\'s complement','C37 C36')
m('clk1','Clock.v','ts_add_io','(wrap T (c + IO_CYCLE_TS), wrap T (c + IO_IORQ_LOW_TS))','(wrap T (c + IO_CYCLE_TS), wrap T (c + IO_CYCLE_TS))','the I/O timestamp is that of the end of the cycle','C34')
m('clk2','Clock.v','IRQ_ACK_CYCLE_TS','IRQ_ACK_CYCLE_TS : Z := 6','IRQ_ACK_CYCLE_TS : Z := 7','an interrupt acknowledge takes 7 T-states','C34 C17')
m('rp1','RegPair.v','ptr8lo','Definition ptr8lo : Z := 0.','Definition ptr8lo : Z := 1.','the pointer to the low byte points to the high one','C44')
m('rp2','RegPair.v','ptr8hi','Definition ptr8hi : Z := 1.','Definition ptr8hi : Z := 2.','the pointer to the high byte points behind the pair','C44')
m('rp3','RegPair.v','rp_from_tuple','let (hi, lo) := t in RP lo hi.','let (hi, lo) := t in RP hi lo.','a pair made from (hi, lo) has its bytes exchanged','C44')
m('rp4','RegPair.v','reg8_ptr','| E => (PDE, ptr8lo)\n','| E => (PHL, ptr8lo)\n','writing E writes L','C44')
m('rp5','RegPair.v','rp_dec16_is_zero','let v := u16 (rp_get16 p - 1) in (rp_set16 v p, v =? 0).','let v := u16 (rp_get16 p - 1) in (rp_set16 v p, rp_get16 p =? 0).','the counter is tested before it is decremented','C44')
m('rp6','RegPair.v','z_get_reg','| Some Yfd => rp_get8lo (zpair z PIY) end\n  | A','| Some Yfd => rp_get8lo (zpair z PIX) end\n  | A','IYL reads IXL','C44')
m('dt1','DebugText.v','debug_text','("de\'", int (de_alt c)); ("hl\'", int (hl_alt c))','("de\'", int (hl_alt c)); ("hl\'", int (de_alt c))','DE\' and HL\' are printed exchanged','C45')
m('dt2','DebugText.v','debug_text','("iff1", dbg_bool (iff1 c)); ("iff2", dbg_bool (iff2 c))','("iff1", dbg_bool (iff1 c)); ("iff2", dbg_bool (iff1 c))','iff1 is printed for iff2','C45')
m('dt3','DebugText.v','debug_text','("mp", int (memptr c)); ','','MEMPTR is not printed','C45')
m('dt4','DebugText.v','any_debug_text','| AnyBM1 c => debug_tuple1 alt "BM1" (debug_text x alt c)','| AnyBM1 c => debug_tuple1 alt "NMOS" (debug_text x alt c)','a BM1 prints as NMOS','C45')
m('dt5','DebugText.v','indent','((if start then "    " else "")','((if start then "  " else "")','two spaces instead of four','C45')
m('fw1','Forward.v','clock_arm','| Mut => [Add_irq; Add_no_mreq; Add_m1; Add_mreq; Add_io; Add_wait_states]','| Mut => [Add_irq; Add_no_mreq; Add_m1; Add_mreq; Add_io]','the @mut arm of Clock forgets add_wait_states','C46')
m('fw2','Forward.v','memory_arm','| Ref => [Read_mem; Read_mem16; Read_debug]','| Ref => [Read_mem; Read_debug]','the @ref arm of Memory forgets read_mem16','C46')
m('fw3','Forward.v','wrapper','(w, u8 lo + 256 * u8 hi))','(w, u8 hi + 256 * u8 lo))','the default read_mem16 has its bytes exchanged','C46')
m('fw4','Forward.v','wrapper','(fun v a => call k (fun c => h_add_mreq h c a) v)','(fun v a => call k (fun c => h_add_m1 h c a) v)','add_mreq is forwarded to add_m1','C46')
m('fw5','Forward.v','debug_bus','((b, Some (u8 (fst r))), r))','((b, snd w), r))','the bus does not remember the data','C46')
m('fw6','Forward.v','wrapper','if fwd Irq_data then call l (fun b => h_irq_data h b a t) w else (w, (0xFF, None))','if fwd Irq_data then call l (fun b => h_irq_data h b a t) w else (w, (0, None))','the default of irq_data is 0 instead of 0xFF','C46')
m('fw7','Forward.v','call','let (b, r) := f (taken l w) in (put_back l b w, r).','let (b, r) := f (taken l w) in (w, r).','the state of the wrapped host is not kept','C46')
# --- Exec.v
m('exe1','Exec.v','execute_instruction','let c := set_halt false (set_last_ei false c) in','let c := set_halt false c in','the after-EI flag is never cleared by single steps','C15 C22')
m('exe2','Exec.v','irq_no_check','if halt c then let p := u16 (p + 1) in (set_pc p (set_halt false c), p) else (c, p)','if halt c then (set_halt false c, p) else (c, p)','an interrupt returns to the HALT itself','C17 C20')
m('exe3','Exec.v','irq_no_check','Z.lor (Z.land ir 0xFF00) vector','Z.lor (Z.land ir 0xFF00) (Z.land vector 0xFE)','the vector loses its lowest bit','C17 C07')
m('exe4','Exec.v','irq_no_check','match ws with Some n => AddWait p n k | None => k end','k','wait states asked for by irq_data are not added','C17 C09')
m('exe5','Exec.v','nmi_no_check','let c := set_iffs false (iff2 c) c in','let c := set_iffs false (iff1 c) c in','NMI copies iff1 to iff2','C18 C38')
m('exe6','Exec.v','nmi_no_check','if halt c then (set_halt false c, u16 (p + 1))','if halt c then (c, u16 (p + 1))','NMI leaves HALT set','C18 C39')
m('exe7','Exec.v','execute_next','else if halt c then AddM1 (pc c) (fun _ => Ret (inc_r c, None))','else if halt c then AddM1 (pc c) (fun _ => Ret (c, None))','R does not count while halted','C19 C10')
m('exe8','Exec.v','ewl_loop','else ewl_loop n (mkSt (set_last_ei false (sc s)) (sfl s) (spc s) (spx s)))','else ewl_loop n s)','the loop leaves the after-EI flag on','C22 C15')
m('exe9','Exec.v','ewl_loop','test_irq (is_int_allowed (spx s) false && iff1 (sc s)) (fun q =>','test_irq (iff1 (sc s)) (fun q =>','the loop accepts interrupts after a prefix','C22')
m('exe10','Exec.v','to_result','| Some (RetiR x) => Some (BReti x)','| Some (RetiR x) => None','RETI breaks are swallowed','C41')
m('exe11','Exec.v','ewl_loop','if past then Ret (Some (fst y, None)) else ewl_loop n (load_st (fst y)))\n              | Some e => Ret (Some (fst y, Some e))\n              end)\n            else ewl_loop n s))','ewl_loop n (load_st (fst y)))\n              | Some e => Ret (Some (fst y, Some e))\n              end)\n            else ewl_loop n s))','the limit is not looked at after an interrupt in the loop','C22')
m('exe12','Exec.v','nmi','if is_int_allowed (prefix c) (last_ei c) then pbind (nmi_no_check c)','if is_int_allowed (prefix c) false then pbind (nmi_no_check c)','NMI is accepted right after EI','C15 C16')
# --- Flavours.v, Cpu.v
m('flv1','Flavours.v','q_get_q','if q_last q then acc else Z.lor acc flags','if q_modified q then acc else Z.lor acc flags','SCF uses the flag of the current instruction','C07 C31')
m('flv2','Flavours.v','BM1','mkFlavour qstate 0 false (fun _ lsb => (0, u8 (lsb + 1)))','mkFlavour qstate 0 false (fun msb lsb => (msb, u8 (lsb + 1)))','BM1 has the MEMPTR of NMOS','C07')
m('flv3','Flavours.v','into_flavour','(im c) (iff1 c) (iff2 c) (halt c) (prefix c) (r c)\n        (f (flavour c))','(im c) (iff1 c) (iff2 c) (halt c) None (r c)\n        (f (flavour c))','into_flavour loses the pending prefix','C32')
m('cpu1','Cpu.v','exx','mkCpu (af c) (af_alt c) (bc_alt c) (de_alt c) (hl_alt c) (bc c) (de c) (hl c)','mkCpu (af c) (af_alt c) (bc_alt c) (de_alt c) (hl_alt c) (bc c) (de c) (hl_alt c)','EXX loses HL','C30 C07')
m('cpu2','Cpu.v','reset','mkCpu 0xFFFF 0xFFFF 0 0 0 0 0 0 0 0 0 0xFFFF 0 false','mkCpu 0xFFFF 0xFFFF 0 0 0 0 0 0 0 0 0 0 0 false','reset clears SP','C29')
m('cpu3','Cpu.v','get_r','Z.lor (Z.land (lo8 (ir c)) 0x80) (Z.land (r c) 0x7F)','lo8 (r c)','bit 7 of R counts','C10 C30')
m('cpu4','Cpu.v','restore_iff1','set_iffs (iff2 c) (iff2 c) c','set_iffs true (iff2 c) c','RETN turns iff1 on','C38 C18')
# --- Ops.v, Flags.v
m('ops1','Ops.v','add','let v := negb (fits_i8 (i8 val + i8 add)) in\n  let z := rval =? 0 in\n  (rval, mask_nh_add','let v := 256 <=? val + add in\n  let z := rval =? 0 in\n  (rval, mask_nh_add','ADD sets PV to the carry','C02')
m('ops2','Ops.v','cp','mask_sign rval |.| mask_xy cmp','mask_sign rval |.| mask_xy rval','CP takes bits 3/5 from the result','C02')
m('ops3','Ops.v','daa_hf','else if n0 && h0 && rng 6 0xF ln then Some false\n  else if n0 && h0 && rng 0 5 ln','else if n0 && h0 && rng 7 0xF ln then Some false\n  else if n0 && h0 && rng 0 6 ln','H after DAA is wrong for low digit 6 after a subtraction','C04')
m('ops4','Ops.v','daa_diff','else if negb c0 && rng 0x00 0x80 hn && rng 0xA 0xF ln then Some 0x06','else if negb c0 && rng 0x00 0x70 hn && rng 0xA 0xF ln then Some 0x06','an unreachable arm of DAA is reached','C01 C04')
m('ops5','Ops.v','sra','u8 (Z.shiftr (i8 val) 1)','Z.shiftr val 1','SRA shifts in a zero','C05')
m('ops6','Ops.v','rrd','let oth\' := rotr8 oth\' 4 in','let oth\' := rotl8 oth\' 3 in','RRD rotates by 3','C05')
m('ops7','Ops.v','adc16','let z := rval =? 0 in\n  (rval, mask_nh_adc16','let z := hi8 rval =? 0 in\n  (rval, mask_nh_adc16','ADC HL looks at the high byte for Z','C06')
m('ops8','Ops.v','iox','parity (Z.lxor (Z.land k 7) b)','parity (Z.land k (Z.lxor 7 b))','other operator precedence in the parity of block I/O','C03 C07')
m('ops9','Ops.v','cpx','(bc_is_zero || (res =? 0),','(bc_is_zero,','CPIR does not stop at a match','C26 C07')
m('flg1','Flags.v','mask_block_op_xy','(Z.land (u8 (Z.shiftl n 4)) FY)','(Z.land n FY)','bit 5 after LDI/CPI is bit 5 of n','C03 C07')
# --- Internal.v, Instr.v
m('int1','Internal.v','fetch_next_opcode','upd inc_r ;;;\n  i <- getc get_ir ;;\n  t <- add_m1 p','i <- getc get_ir ;;\n  upd inc_r ;;;\n  t <- add_m1 p','the refresh address is that before the increment','C07 C08')
m('int2','Internal.v','fetch_next_imm16','_ <- add_mreq pc1 ;;\n  opt_no_mreq pc1 add','_ <- add_mreq p ;;\n  opt_no_mreq pc1 add','the second operand byte has the address of the first','C08 C09')
m('int3','Internal.v','push2','wr_mreq p vhi ;;;\n  let p := u16 (p - 1) in\n  wr_mreq p vlo','wr_mreq p vlo ;;;\n  let p := u16 (p - 1) in\n  wr_mreq p vhi','PUSH stores the bytes the wrong way round','C24 C07')
m('int4','Internal.v','pop16','upd (set_sp (u16 (p + 2)))','upd (set_sp (p + 2))','SP does not wrap','C01 C24')
m('int5','Internal.v','block_transfer','add_no_mreq e 5 ;;;','add_no_mreq e 4 ;;;','repeated LDIR takes 20 T-states','C25 C08')
m('int6','Internal.v','block_in','let b := u8 (hi8 v0 - 1) in\n  f <- getf ;;\n  setf (iox (fst r) b (u8 (lo8 v0 + u8 (delta16 d))) f)','let b := u8 (hi8 v0 - 1) in\n  f <- getf ;;\n  setf (iox (fst r) b (lo8 v0) f)','INI flags use C instead of C+1','C07')
m('int7','Internal.v','block_out','t <- add_io v ;;\n  r <- write_io v data t','t <- add_io v0 ;;\n  r <- write_io v0 data t','OUTI puts B before the decrement on the bus','C07 C27')
m('int8','Internal.v','io_a_inp_an','opt_wait port (snd r) ;;;\n  upd (set_acc (fst r))','upd (set_acc (fst r))','IN A,(n) forgets wait states','C09')
m('int9','Internal.v','instr_ld_a_from_ir','mret (negb q)','mret true','NMOS LD A,I does not have the PV defect','C07 C31')
m('int10','Internal.v','write_mem8_ii_d','let a := indexed_address ii d in\n  upd (set_memptr a) ;;;\n  wr_mreq a v','let a := u16 (ii + d) in\n  upd (set_memptr a) ;;;\n  wr_mreq a v','displacements are not signed','C07 C42')
m('int11','Internal.v','cpu_debug','(u16 (spc s - Z.of_nat (List.length code)))','(u16 (spc s - Z.of_nat (List.length bytes)))','a prefixed instruction is reported at the address after the prefix','C12')
m('int12','Internal.v','bitops_qq','match arg with Some g => upd (set_reg g None x) | None => mret tt end in','mret tt in','SET b,(IX+d),r does not load r','C07')
m('int13','Internal.v','bitops','setf (bit_mp b v (hi8 m) f)','setf (bit b v f)','BIT b,(HL) takes bits 3/5 from the operand','C07')
m('ins1','Instr.v','run_none','p <- getpc ;; setpc (u16 (p - 1)) ;;; upd do_halt ;;; brk Halt','upd do_halt ;;; brk Halt','HALT leaves PC after itself','C19')
m('ins2','Instr.v','run_none','_ <- add_mreq p ;;\n        e <- read_debug p ;;','t <- add_mreq p ;;\n        e <- read_mem p t ;;','an untaken JR reads memory','C40')
m('ins3','Instr.v','run_ed','(if c =? 0x4D then','(if Z.land c 0xCF =? 0x4D then','RETI is signalled for undocumented RETNs','C07 C41')
m('ins4','Instr.v','run_none','| M_EI => cpu_debug [c] "EI" a0 ;;; upd enable_interrupts ;;; brk EnableInt','| M_EI => cpu_debug [c] "EI" a0 ;;; upd (set_iffs true true) ;;; brk EnableInt','EI does not delay interrupts','C15')
m('ins5','Instr.v','run_pfx','| P_PFX p => setpx (Some p) ;;; mret PKeep','| P_PFX p => mret PKeep','the first prefix of a chain wins','C13')
m('ins6','Instr.v','decode_pfx','(0x27,0x27);(0x28,0x28)','(0x27,0x28);(0x27,0x27)','none: the same set of op-codes (equivalent mutant)','')
m('ins7','Instr.v','decode_ed','else if oneof [0x56;0x76] c then E_IM Mode1','else if oneof [0x56] c then E_IM Mode1','ED 76 falls through to the unreachable arm','C01')
m('ins8','Instr.v','run_none','p <- getpc ;;\n        add_no_mreq (u16 (p - 1)) 1 ;;;','p <- getpc ;;\n        add_no_mreq p 1 ;;;','CALL cc idles on the wrong address','C08')
m('ins9','Instr.v','run_none','cpu_debug [c; e] "JR" (a2 (d_cc cc) (d_nn (relative_jump_address p e))) ;;; ok','cpu_debug [c; e] "JR" (a2 (d_cc cc) (d_nn p)) ;;; ok','an untaken JR is reported with a wrong target','C43')
m('ins10','Instr.v','run_none','brk_io w\n  | M_NONE => stuck','ok\n  | M_NONE => stuck','OUT (n),A swallows the break','C41')
m('ins11','Instr.v','exec_code','upd (fun x => set_flavour (begin_instruction FL (flavour x)) x) ;;;\n  px','px','the Q state is never advanced','C07')
# --- the example computer (C51, C53-C57)
m('mem1','RalMemory.v','write_ctrl','if rm_select m =? no then m\n','if rm_select m =? 0 then m\n','with cartridge 0 selected no other can be','C51')
m('mem2','RalMemory.v','write_ctrl','let m := set_select no m in if rm_is_ram m then m else exrom_to_bank1 m','let m := set_select no m in exrom_to_bank1 m','selecting a cartridge from the ROM maps it over the kernel page','C51')
m('mem3','RalMemory.v','m_read_opcode','let m := if rm_is_ram m then exrom_to_bank1 m else m in\n    if pcbank =? BANK1','let m := m in\n    if pcbank =? BANK1','the kernel page stays visible outside the ROM','C51')
m('mem4','RalMemory.v','eject_exroms','let m := if rm_is_ram m then m else set_bank1 None m in','let m := m in','after ejecting, the pointer to a cartridge dangles','C51')
m('mem5','RalMemory.v','m_read_mem16','if offs + 1 <? rm_ram1_len m then','if offs <? rm_ram1_len m then','a word at the last byte of the RAM is read past its end','C51')
m('mem6','RalMemory.v','attach_exrom','if free_exrom_slots m =? 0 then None','if free_exrom_slots m <? 0 then None','a 257th cartridge is accepted','C51')
m('bus1','RalBus.v','bus_read_opcode','on_mem (on_dev\' b (dv_m1 dv t)) (m_read_opcode (u16 pc))','on_mem b (m_read_opcode (u16 pc))','the devices do not hear opcode fetches','C57 C54')
m('bus2','RalBus.v','check_wrap_second','if h2 <? tc_cur c then','if tc_hz c <? tc_cur c then','the second is taken back too early','C53')
m('bus3','RalBus.v','ral_host','(fun b pc t => on_dev b (255, None) (dv_irq_data dv (u16 pc) t))','(fun b pc t => (b, (255, None)))','the devices do not hear acknowledges','C57')
m('bus4','RalBus.v','ral_host','(fun b pc t => on_dev b None (dv_reti dv (u16 pc) t))','(fun b pc t => on_dev b None (dv_reti dv (u16 pc) (t + 1)))','the devices hear RETI one T-state later than it is','C57')
m('bus5','RalBus.v','bus_write_io','on_dev b (None, None) (dv_write_io dv (u16 p) (u8 v) t)','on_dev b (None, None) (dv_write_io dv (u8 p) (u8 v) t)','the upper half of the port does not reach the devices','C57')
m('run1','RalRunner.v','runner_step','checked (if wrapped then sub32 (rn_limit r) (tc_hz k) else Some (rn_limit r)) (fun limit =>','checked (Some (rn_limit r)) (fun limit =>','the limit is not put back with the clock','C53 C57')
m('run2','RalRunner.v','runner_step','checked (add32 limit (rn_frame r)) (fun limit =>','checked (add32 start (rn_frame r)) (fun limit =>','frames start where the last one ended, so the overshoots add up','C53')
m('run3','RalRunner.v','frame_loop','| Some BHalt => frame_loop n fuel limit c b k','| Some BHalt => Done (c, b, k)','a HALT ends the frame','C53')
m('run4','RalRunner.v','runner_step','with_bus (bus_frame_end dv (tc_cur k) b) (fun b =>','with_bus b (fun b =>','the devices do not hear the end of a frame','C57')
m('run5','RalRunner.v','runner_step','with_bus (if wrapped then bus_next_second dv (tc_hz k) (w_bus w) else w_bus w) (fun b =>','with_bus (w_bus w) (fun b =>','the devices are not told of the seconds','C57')
m('run6','RalRunner.v','runner_reset','with_bus (bus_reset dv (tc_cur (rn_clock (w_run w))) (w_bus w))','with_bus (bus_reset dv 0 (w_bus w))','the reset button tells the devices the time 0','C57')
m('pio1','RalPio.v','pio_input','(fun _ x => (fst x, true)) (fun _ x => (fst x, true))\n','(fun _ x => (fst x, true)) (fun _ x => x)\n','the terminal is not told that its byte was read','C54 C56')
m('pio2','RalPio.v','chan_check','chan_set_int (mkChan false (ch_want c) (ch_ints c) (ch_int c) false v','chan_set_int (mkChan false (ch_want c) (ch_ints c) (ch_int c) true v','a byte that was not read yet is overwritten','C54')
m('pio3','RalPio.v','pio_output','(s, if ok then snd x else Some data)','(s, snd x)','a byte the terminal does not take at once is lost','C54')
m('pio4','RalPio.v','chan_m1','mkChan (ch_output c) false true (ch_int c)','mkChan (ch_output c) false (ch_ints c) (ch_int c)','interrupts are never enabled','C54')
m('pio5','RalPio.v','pio_irq_data','if ch_int (pio_a p) then Some (mkPio (int_off (pio_a p)) (pio_b p) true (pio_next p), (ch_vec (pio_a p), None))','if ch_int (pio_a p) then Some (mkPio (int_off (pio_a p)) (pio_b p) true (pio_next p), (ch_vec (pio_b p), None))','channel A answers with the vector of channel B','C54 C56')
m('pio6','RalPio.v','pio_reti','if pio_ieo p then Some (mkPio (pio_a p) (pio_b p) false (pio_next p), None)','if pio_ieo p then Some (mkPio (pio_a p) (pio_b p) true (pio_next p), None)','RETI does not end the service of the PIO','C54 C56')
m('pio7','RalPio.v','chan_write_control','else Some (mkChan (ch_output c) false false false (ch_ready c)','else Some (mkChan (ch_output c) false false (ch_int c) (ch_ready c)','disabling interrupts keeps the request','C54')
m('pio8','RalPio.v','pio_is_irq','if pio_ieo p then Some (p, false)\n','if false then Some (p, false)\n','the PIO interrupts its own service','C56')
m('pio9','RalPio.v','chan_write_control','| 7 => None\n','| 7 => Some c\n','the interrupt control word is accepted and ignored','C54')
m('ctc1','RalCtc.v','downcount','let n := u8 (cc_cur c - 1) in','let n := u8 (cc_cur c - 2) in','a counter counts by two','C55')
m('ctc2','RalCtc.v','start_timer','do s <- add32 t 1; Some (set_hint s (set_last (Some s) c))','do s <- add32 t 2; Some (set_hint s (set_last (Some s) c))','a timer starts one T-state late','C55')
m('ctc3','RalCtc.v','process','let full := 256 * (if r =? 0 then 256 else r) in','let full := 256 * r in','the constant 0 does not stand for 256','C55')
m('ctc4','RalCtc.v','cc_factor','if cc_x16 c then 16 else 1','if cc_x16 c then 1 else 16','the prescalers are exchanged','C55')
m('ctc5','RalCtc.v','timer_loop','do u <- add32 u (k / cc_factor c);\n        do w <- tg_pulse tg u w;','do w <- tg_pulse tg u w;\n        do u <- add32 u (k / cc_factor c);','a pulse has the time of the one before','C55')
m('ctc6','RalCtc.v','cc_second','Some (set_last (Some (s - delta)) c)','Some (set_last (Some s) c)','a timer loses a second each second','C55')
m('ctc7','RalCtc.v','ctc_irq_data','mkCtc (ct_hint p) (ct_vec p) (ct_0 p) (set_int false (ct_1 p)) (ct_2 p) (ct_3 p) true (ct_lines p) (ct_next p), (Z.lor (ct_vec p) 2, None)','mkCtc (ct_hint p) (ct_vec p) (ct_0 p) (ct_1 p) (ct_2 p) (ct_3 p) true (ct_lines p) (ct_next p), (Z.lor (ct_vec p) 2, None)','the request of channel 1 is not taken back','C56')
m('ctc8','RalCtc.v','ctc_irq_data','else behind\' (mkCtc (ct_hint p) (ct_vec p) (ct_0 p) (ct_1 p) (ct_2 p) (ct_3 p) false (ct_lines p) (ct_next p)) (dv_irq_data dv pc t)','else behind\' (mkCtc (ct_hint p) (ct_vec p) (ct_0 p) (ct_1 p) (ct_2 p) (ct_3 p) true (ct_lines p) (ct_next p)) (dv_irq_data dv pc t)','the CTC takes the service of the PIO for its own','C56')
m('ctc9','RalCtc.v','ctc_write_io','(Z.land v 0xF8)','(Z.land v 0xFE)','the vector keeps the bits of the channel','C56')
m('ctc10','RalCtc.v','ctc_m1','do p <- process_channels t p; behind p (dv_m1 dv t)','do p <- process_channels t p; Some p','devices behind the CTC do not hear opcode fetches','C56 C57')
m('ctc11','RalCtc.v','cc_write','let c := if Z.testbit v 7 then set_ints true c else set_ints false (set_int false c) in','let c := set_ints (Z.testbit v 7) c in','disabling the interrupt of a channel keeps its request','C55')
m('ctc12','RalCtc.v','process','Some (set_hint h (set_last (Some t)\n                (if k mod 256 =? 0 then set_tci 256 (set_cur (u8 (k / 256)) c)','Some (set_hint h (set_last (Some t)\n                (if k mod 256 =? 0 then set_tci 256 (set_cur (u8 (k / 256 + 1)) c)','the counter reads one more at a multiple of the prescaler','C55')
m('ctc13','RalCtc.v','ctc_reset','(fun g => cc_reset g t) 0 false','(fun g => cc_reset g t) 0 (ct_ieo p)','a reset keeps the CTC in service','C56')
m('ctc14','RalCtc.v','active_pulse','(ln_pulses l ++ [t])','(t :: ln_pulses l)','pulses are kept in the wrong order','C55')
json.dump(L, open(sys.argv[1], 'w'), indent=0); print(len(L))
import os
for x in L:
    n = open('/verif/rocq/theories/' + x['file']).read().count(x['old'])
    if n != 1: print('BAD', x['id'], n)
