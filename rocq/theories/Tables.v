(** The tables of the crate's tests, verbatim: tests/mnemonics.txt, tests/mnemonics_prefix.txt, tests/mnemonics_cycles.txt
    (written by tools/gen_tables.py). *)
From Coq Require Import String.
Open Scope string_scope.

(* tests/mnemonics.txt *)
Definition mnemonics : string := "00 NOP
01 LD BC,nnnn
02 LD (BC),A
03 INC BC
04 INC B
05 DEC B
06 LD B,nn
07 RLCA
08 EX AF,AF'
09 ADD HL,BC
0a LD A,(BC)
0b DEC BC
0c INC C
0d DEC C
0e LD C,nn
0f RRCA
10 DJNZ ee
11 LD DE,nnnn
12 LD (DE),A
13 INC DE
14 INC D
15 DEC D
16 LD D,nn
17 RLA
18 JR ee
19 ADD HL,DE
1a LD A,(DE)
1b DEC DE
1c INC E
1d DEC E
1e LD E,nn
1f RRA
20 JR NZ,ee
21 LD HL,nnnn
22 LD (nnnn),HL
23 INC HL
24 INC H
25 DEC H
26 LD H,nn
27 DAA
28 JR Z,ee
29 ADD HL,HL
2a LD HL,(nnnn)
2b DEC HL
2c INC L
2d DEC L
2e LD L,nn
2f CPL
30 JR NC,ee
31 LD SP,nnnn
32 LD (nnnn),A
33 INC SP
34 INC (HL)
35 DEC (HL)
36 LD (HL),nn
37 SCF
38 JR C,ee
39 ADD HL,SP
3a LD A,(nnnn)
3b DEC SP
3c INC A
3d DEC A
3e LD A,nn
3f CCF
40 LD B,B
41 LD B,C
42 LD B,D
43 LD B,E
44 LD B,H
45 LD B,L
46 LD B,(HL)
47 LD B,A
48 LD C,B
49 LD C,C
4a LD C,D
4b LD C,E
4c LD C,H
4d LD C,L
4e LD C,(HL)
4f LD C,A
50 LD D,B
51 LD D,C
52 LD D,D
53 LD D,E
54 LD D,H
55 LD D,L
56 LD D,(HL)
57 LD D,A
58 LD E,B
59 LD E,C
5a LD E,D
5b LD E,E
5c LD E,H
5d LD E,L
5e LD E,(HL)
5f LD E,A
60 LD H,B
61 LD H,C
62 LD H,D
63 LD H,E
64 LD H,H
65 LD H,L
66 LD H,(HL)
67 LD H,A
68 LD L,B
69 LD L,C
6a LD L,D
6b LD L,E
6c LD L,H
6d LD L,L
6e LD L,(HL)
6f LD L,A
70 LD (HL),B
71 LD (HL),C
72 LD (HL),D
73 LD (HL),E
74 LD (HL),H
75 LD (HL),L
76 HALT
77 LD (HL),A
78 LD A,B
79 LD A,C
7a LD A,D
7b LD A,E
7c LD A,H
7d LD A,L
7e LD A,(HL)
7f LD A,A
80 ADD A,B
81 ADD A,C
82 ADD A,D
83 ADD A,E
84 ADD A,H
85 ADD A,L
86 ADD A,(HL)
87 ADD A,A
88 ADC A,B
89 ADC A,C
8a ADC A,D
8b ADC A,E
8c ADC A,H
8d ADC A,L
8e ADC A,(HL)
8f ADC A,A
90 SUB B
91 SUB C
92 SUB D
93 SUB E
94 SUB H
95 SUB L
96 SUB (HL)
97 SUB A
98 SBC A,B
99 SBC A,C
9a SBC A,D
9b SBC A,E
9c SBC A,H
9d SBC A,L
9e SBC A,(HL)
9f SBC A,A
a0 AND B
a1 AND C
a2 AND D
a3 AND E
a4 AND H
a5 AND L
a6 AND (HL)
a7 AND A
a8 XOR B
a9 XOR C
aa XOR D
ab XOR E
ac XOR H
ad XOR L
ae XOR (HL)
af XOR A
b0 OR B
b1 OR C
b2 OR D
b3 OR E
b4 OR H
b5 OR L
b6 OR (HL)
b7 OR A
b8 CP B
b9 CP C
ba CP D
bb CP E
bc CP H
bd CP L
be CP (HL)
bf CP A
c0 RET NZ
c1 POP BC
c2 JP NZ,nnnn
c3 JP nnnn
c4 CALL NZ,nnnn
c5 PUSH BC
c6 ADD A,nn
c7 RST 00
c8 RET Z
c9 RET
ca JP Z,nnnn
cb,00 RLC B
cb,01 RLC C
cb,02 RLC D
cb,03 RLC E
cb,04 RLC H
cb,05 RLC L
cb,06 RLC (HL)
cb,07 RLC A
cb,08 RRC B
cb,09 RRC C
cb,0a RRC D
cb,0b RRC E
cb,0c RRC H
cb,0d RRC L
cb,0e RRC (HL)
cb,0f RRC A
cb,10 RL B
cb,11 RL C
cb,12 RL D
cb,13 RL E
cb,14 RL H
cb,15 RL L
cb,16 RL (HL)
cb,17 RL A
cb,18 RR B
cb,19 RR C
cb,1a RR D
cb,1b RR E
cb,1c RR H
cb,1d RR L
cb,1e RR (HL)
cb,1f RR A
cb,20 SLA B
cb,21 SLA C
cb,22 SLA D
cb,23 SLA E
cb,24 SLA H
cb,25 SLA L
cb,26 SLA (HL)
cb,27 SLA A
cb,28 SRA B
cb,29 SRA C
cb,2a SRA D
cb,2b SRA E
cb,2c SRA H
cb,2d SRA L
cb,2e SRA (HL)
cb,2f SRA A
cb,30 SLL B
cb,31 SLL C
cb,32 SLL D
cb,33 SLL E
cb,34 SLL H
cb,35 SLL L
cb,36 SLL (HL)
cb,37 SLL A
cb,38 SRL B
cb,39 SRL C
cb,3a SRL D
cb,3b SRL E
cb,3c SRL H
cb,3d SRL L
cb,3e SRL (HL)
cb,3f SRL A
cb,40 BIT 0,B
cb,41 BIT 0,C
cb,42 BIT 0,D
cb,43 BIT 0,E
cb,44 BIT 0,H
cb,45 BIT 0,L
cb,46 BIT 0,(HL)
cb,47 BIT 0,A
cb,48 BIT 1,B
cb,49 BIT 1,C
cb,4a BIT 1,D
cb,4b BIT 1,E
cb,4c BIT 1,H
cb,4d BIT 1,L
cb,4e BIT 1,(HL)
cb,4f BIT 1,A
cb,50 BIT 2,B
cb,51 BIT 2,C
cb,52 BIT 2,D
cb,53 BIT 2,E
cb,54 BIT 2,H
cb,55 BIT 2,L
cb,56 BIT 2,(HL)
cb,57 BIT 2,A
cb,58 BIT 3,B
cb,59 BIT 3,C
cb,5a BIT 3,D
cb,5b BIT 3,E
cb,5c BIT 3,H
cb,5d BIT 3,L
cb,5e BIT 3,(HL)
cb,5f BIT 3,A
cb,60 BIT 4,B
cb,61 BIT 4,C
cb,62 BIT 4,D
cb,63 BIT 4,E
cb,64 BIT 4,H
cb,65 BIT 4,L
cb,66 BIT 4,(HL)
cb,67 BIT 4,A
cb,68 BIT 5,B
cb,69 BIT 5,C
cb,6a BIT 5,D
cb,6b BIT 5,E
cb,6c BIT 5,H
cb,6d BIT 5,L
cb,6e BIT 5,(HL)
cb,6f BIT 5,A
cb,70 BIT 6,B
cb,71 BIT 6,C
cb,72 BIT 6,D
cb,73 BIT 6,E
cb,74 BIT 6,H
cb,75 BIT 6,L
cb,76 BIT 6,(HL)
cb,77 BIT 6,A
cb,78 BIT 7,B
cb,79 BIT 7,C
cb,7a BIT 7,D
cb,7b BIT 7,E
cb,7c BIT 7,H
cb,7d BIT 7,L
cb,7e BIT 7,(HL)
cb,7f BIT 7,A
cb,80 RES 0,B
cb,81 RES 0,C
cb,82 RES 0,D
cb,83 RES 0,E
cb,84 RES 0,H
cb,85 RES 0,L
cb,86 RES 0,(HL)
cb,87 RES 0,A
cb,88 RES 1,B
cb,89 RES 1,C
cb,8a RES 1,D
cb,8b RES 1,E
cb,8c RES 1,H
cb,8d RES 1,L
cb,8e RES 1,(HL)
cb,8f RES 1,A
cb,90 RES 2,B
cb,91 RES 2,C
cb,92 RES 2,D
cb,93 RES 2,E
cb,94 RES 2,H
cb,95 RES 2,L
cb,96 RES 2,(HL)
cb,97 RES 2,A
cb,98 RES 3,B
cb,99 RES 3,C
cb,9a RES 3,D
cb,9b RES 3,E
cb,9c RES 3,H
cb,9d RES 3,L
cb,9e RES 3,(HL)
cb,9f RES 3,A
cb,a0 RES 4,B
cb,a1 RES 4,C
cb,a2 RES 4,D
cb,a3 RES 4,E
cb,a4 RES 4,H
cb,a5 RES 4,L
cb,a6 RES 4,(HL)
cb,a7 RES 4,A
cb,a8 RES 5,B
cb,a9 RES 5,C
cb,aa RES 5,D
cb,ab RES 5,E
cb,ac RES 5,H
cb,ad RES 5,L
cb,ae RES 5,(HL)
cb,af RES 5,A
cb,b0 RES 6,B
cb,b1 RES 6,C
cb,b2 RES 6,D
cb,b3 RES 6,E
cb,b4 RES 6,H
cb,b5 RES 6,L
cb,b6 RES 6,(HL)
cb,b7 RES 6,A
cb,b8 RES 7,B
cb,b9 RES 7,C
cb,ba RES 7,D
cb,bb RES 7,E
cb,bc RES 7,H
cb,bd RES 7,L
cb,be RES 7,(HL)
cb,bf RES 7,A
cb,c0 SET 0,B
cb,c1 SET 0,C
cb,c2 SET 0,D
cb,c3 SET 0,E
cb,c4 SET 0,H
cb,c5 SET 0,L
cb,c6 SET 0,(HL)
cb,c7 SET 0,A
cb,c8 SET 1,B
cb,c9 SET 1,C
cb,ca SET 1,D
cb,cb SET 1,E
cb,cc SET 1,H
cb,cd SET 1,L
cb,ce SET 1,(HL)
cb,cf SET 1,A
cb,d0 SET 2,B
cb,d1 SET 2,C
cb,d2 SET 2,D
cb,d3 SET 2,E
cb,d4 SET 2,H
cb,d5 SET 2,L
cb,d6 SET 2,(HL)
cb,d7 SET 2,A
cb,d8 SET 3,B
cb,d9 SET 3,C
cb,da SET 3,D
cb,db SET 3,E
cb,dc SET 3,H
cb,dd SET 3,L
cb,de SET 3,(HL)
cb,df SET 3,A
cb,e0 SET 4,B
cb,e1 SET 4,C
cb,e2 SET 4,D
cb,e3 SET 4,E
cb,e4 SET 4,H
cb,e5 SET 4,L
cb,e6 SET 4,(HL)
cb,e7 SET 4,A
cb,e8 SET 5,B
cb,e9 SET 5,C
cb,ea SET 5,D
cb,eb SET 5,E
cb,ec SET 5,H
cb,ed SET 5,L
cb,ee SET 5,(HL)
cb,ef SET 5,A
cb,f0 SET 6,B
cb,f1 SET 6,C
cb,f2 SET 6,D
cb,f3 SET 6,E
cb,f4 SET 6,H
cb,f5 SET 6,L
cb,f6 SET 6,(HL)
cb,f7 SET 6,A
cb,f8 SET 7,B
cb,f9 SET 7,C
cb,fa SET 7,D
cb,fb SET 7,E
cb,fc SET 7,H
cb,fd SET 7,L
cb,fe SET 7,(HL)
cb,ff SET 7,A
cc CALL Z,nnnn
cd CALL nnnn
ce ADC A,nn
cf RST 08
d0 RET NC
d1 POP DE
d2 JP NC,nnnn
d3 OUT (nn),A
d4 CALL NC,nnnn
d5 PUSH DE
d6 SUB nn
d7 RST 10
d8 RET C
d9 EXX
da JP C,nnnn
db IN A,(nn)
dc CALL C,nnnn
dd prefix IX
de SBC A,nn
df RST 18
e0 RET PO
e1 POP HL
e2 JP PO,nnnn
e3 EX (SP),HL
e4 CALL PO,nnnn
e5 PUSH HL
e6 AND nn
e7 RST 20
e8 RET PE
e9 JP (HL)
ea JP PE,nnnn
eb EX DE,HL
ec CALL PE,nnnn
ed,00 NOP*
ed,40 IN B,(C)
ed,41 OUT (C),B
ed,42 SBC HL,BC
ed,43 LD (nnnn),BC *
ed,44 NEG
ed,45 RETN
ed,46 IM 0
ed,47 LD I,A
ed,48 IN C,(C)
ed,49 OUT (C),C
ed,4a ADC HL,BC
ed,4b LD BC,(nnnn) *
ed,4c NEG
ed,4d RETI
ed,4e IM 0
ed,4f LD R,A
ed,50 IN D,(C)
ed,51 OUT (C),D
ed,52 SBC HL,DE
ed,53 LD (nnnn),DE *
ed,54 NEG
ed,55 RETN
ed,56 IM 1
ed,57 LD A,I
ed,58 IN E,(C)
ed,59 OUT (C),E
ed,5a ADC HL,DE
ed,5b LD DE,(nnnn) *
ed,5c NEG
ed,5d RETN
ed,5e IM 2
ed,5f LD A,R
ed,60 IN H,(C)
ed,61 OUT (C),H
ed,62 SBC HL,HL
ed,63 LD (nnnn),HL *
ed,64 NEG
ed,65 RETN
ed,66 IM 0
ed,67 RRD
ed,68 IN L,(C)
ed,69 OUT (C),L
ed,6a ADC HL,HL
ed,6b LD HL,(nnnn) *
ed,6c NEG
ed,6d RETN
ed,6e IM 0
ed,6f RLD
ed,70 IN (C)
ed,71 OUT (C)
ed,72 SBC HL,SP
ed,73 LD (nnnn),SP *
ed,74 NEG
ed,75 RETN
ed,76 IM 1
ed,78 IN A,(C)
ed,79 OUT (C),A
ed,7a ADC HL,SP
ed,7b LD SP,(nnnn) *
ed,7c NEG
ed,7d RETN
ed,7e IM 2
ed,a0 LDI
ed,a1 CPI
ed,a2 INI
ed,a3 OUTI
ed,a8 LDD
ed,a9 CPD
ed,aa IND
ed,ab OUTD
ed,b0 LDIR
ed,b1 CPIR
ed,b2 INIR
ed,b3 OTIR
ed,b8 LDDR
ed,b9 CPDR
ed,ba INDR
ed,bb OTDR
ee XOR nn
ef RST 28
f0 RET P
f1 POP AF
f2 JP P,nnnn
f3 DI
f4 CALL P,nnnn
f5 PUSH AF
f6 OR nn
f7 RST 30
f8 RET M
f9 LD SP,HL
fa JP M,nnnn
fb EI
fc CALL M,nnnn
fd prefix IY
fe CP nn
ff RST 38
".
(* tests/mnemonics_prefix.txt *)
Definition mnemonics_prefix : string := "09 ADD I?,BC
19 ADD I?,DE
21 LD I?,nnnn
22 LD (nnnn),I?
23 INC I?
24 INC I?H
25 DEC I?H
26 LD I?H,nn
29 ADD I?,I?
2a LD I?,(nnnn)
2b DEC I?
2c INC I?L
2d DEC I?L
2e LD I?L,nn
34 INC (I?+dd)
35 DEC (I?+dd)
36 LD (I?+dd),nn
39 ADD I?,SP
44 LD B,I?H
45 LD B,I?L
46 LD B,(I?+dd)
4c LD C,I?H
4d LD C,I?L
4e LD C,(I?+dd)
54 LD D,I?H
55 LD D,I?L
56 LD D,(I?+dd)
5c LD E,I?H
5d LD E,I?L
5e LD E,(I?+dd)
60 LD I?H,B
61 LD I?H,C
62 LD I?H,D
63 LD I?H,E
64 LD I?H,I?H
65 LD I?H,I?L
66 LD H,(I?+dd)
67 LD I?H,A
68 LD I?L,B
69 LD I?L,C
6a LD I?L,D
6b LD I?L,E
6c LD I?L,I?H
6d LD I?L,I?L
6e LD L,(I?+dd)
6f LD I?L,A
70 LD (I?+dd),B
71 LD (I?+dd),C
72 LD (I?+dd),D
73 LD (I?+dd),E
74 LD (I?+dd),H
75 LD (I?+dd),L
77 LD (I?+dd),A
7c LD A,I?H
7d LD A,I?L
7e LD A,(I?+dd)
84 ADD A,I?H
85 ADD A,I?L
86 ADD A,(I?+dd)
8c ADC A,I?H
8d ADC A,I?L
8e ADC A,(I?+dd)
94 SUB I?H
95 SUB I?L
96 SUB (I?+dd)
9c SBC A,I?H
9d SBC A,I?L
9e SBC A,(I?+dd)
a4 AND I?H
a5 AND I?L
a6 AND (I?+dd)
ac XOR I?H
ad XOR I?L
ae XOR (I?+dd)
b4 OR I?H
b5 OR I?L
b6 OR (I?+dd)
bc CP I?H
bd CP I?L
be CP (I?+dd)
cb,00 RLC (I?+dd),B
cb,01 RLC (I?+dd),C
cb,02 RLC (I?+dd),D
cb,03 RLC (I?+dd),E
cb,04 RLC (I?+dd),H
cb,05 RLC (I?+dd),L
cb,06 RLC (I?+dd)
cb,07 RLC (I?+dd),A
cb,08 RRC (I?+dd),B
cb,09 RRC (I?+dd),C
cb,0a RRC (I?+dd),D
cb,0b RRC (I?+dd),E
cb,0c RRC (I?+dd),H
cb,0d RRC (I?+dd),L
cb,0e RRC (I?+dd)
cb,0f RRC (I?+dd),A
cb,10 RL (I?+dd),B
cb,11 RL (I?+dd),C
cb,12 RL (I?+dd),D
cb,13 RL (I?+dd),E
cb,14 RL (I?+dd),H
cb,15 RL (I?+dd),L
cb,16 RL (I?+dd)
cb,17 RL (I?+dd),A
cb,18 RR (I?+dd),B
cb,19 RR (I?+dd),C
cb,1a RR (I?+dd),D
cb,1b RR (I?+dd),E
cb,1c RR (I?+dd),H
cb,1d RR (I?+dd),L
cb,1e RR (I?+dd)
cb,1f RR (I?+dd),A
cb,20 SLA (I?+dd),B
cb,21 SLA (I?+dd),C
cb,22 SLA (I?+dd),D
cb,23 SLA (I?+dd),E
cb,24 SLA (I?+dd),H
cb,25 SLA (I?+dd),L
cb,26 SLA (I?+dd)
cb,27 SLA (I?+dd),A
cb,28 SRA (I?+dd),B
cb,29 SRA (I?+dd),C
cb,2a SRA (I?+dd),D
cb,2b SRA (I?+dd),E
cb,2c SRA (I?+dd),H
cb,2d SRA (I?+dd),L
cb,2e SRA (I?+dd)
cb,2f SRA (I?+dd),A
cb,30 SLL (I?+dd),B
cb,31 SLL (I?+dd),C
cb,32 SLL (I?+dd),D
cb,33 SLL (I?+dd),E
cb,34 SLL (I?+dd),H
cb,35 SLL (I?+dd),L
cb,36 SLL (I?+dd)
cb,37 SLL (I?+dd),A
cb,38 SRL (I?+dd),B
cb,39 SRL (I?+dd),C
cb,3a SRL (I?+dd),D
cb,3b SRL (I?+dd),E
cb,3c SRL (I?+dd),H
cb,3d SRL (I?+dd),L
cb,3e SRL (I?+dd)
cb,3f SRL (I?+dd),A
cb,40 BIT 0,(I?+dd)
cb,41 BIT 0,(I?+dd)
cb,42 BIT 0,(I?+dd)
cb,43 BIT 0,(I?+dd)
cb,44 BIT 0,(I?+dd)
cb,45 BIT 0,(I?+dd)
cb,46 BIT 0,(I?+dd)
cb,47 BIT 0,(I?+dd)
cb,48 BIT 1,(I?+dd)
cb,49 BIT 1,(I?+dd)
cb,4a BIT 1,(I?+dd)
cb,4b BIT 1,(I?+dd)
cb,4c BIT 1,(I?+dd)
cb,4d BIT 1,(I?+dd)
cb,4e BIT 1,(I?+dd)
cb,4f BIT 1,(I?+dd)
cb,50 BIT 2,(I?+dd)
cb,51 BIT 2,(I?+dd)
cb,52 BIT 2,(I?+dd)
cb,53 BIT 2,(I?+dd)
cb,54 BIT 2,(I?+dd)
cb,55 BIT 2,(I?+dd)
cb,56 BIT 2,(I?+dd)
cb,57 BIT 2,(I?+dd)
cb,58 BIT 3,(I?+dd)
cb,59 BIT 3,(I?+dd)
cb,5a BIT 3,(I?+dd)
cb,5b BIT 3,(I?+dd)
cb,5c BIT 3,(I?+dd)
cb,5d BIT 3,(I?+dd)
cb,5e BIT 3,(I?+dd)
cb,5f BIT 3,(I?+dd)
cb,60 BIT 4,(I?+dd)
cb,61 BIT 4,(I?+dd)
cb,62 BIT 4,(I?+dd)
cb,63 BIT 4,(I?+dd)
cb,64 BIT 4,(I?+dd)
cb,65 BIT 4,(I?+dd)
cb,66 BIT 4,(I?+dd)
cb,67 BIT 4,(I?+dd)
cb,68 BIT 5,(I?+dd)
cb,69 BIT 5,(I?+dd)
cb,6a BIT 5,(I?+dd)
cb,6b BIT 5,(I?+dd)
cb,6c BIT 5,(I?+dd)
cb,6d BIT 5,(I?+dd)
cb,6e BIT 5,(I?+dd)
cb,6f BIT 5,(I?+dd)
cb,70 BIT 6,(I?+dd)
cb,71 BIT 6,(I?+dd)
cb,72 BIT 6,(I?+dd)
cb,73 BIT 6,(I?+dd)
cb,74 BIT 6,(I?+dd)
cb,75 BIT 6,(I?+dd)
cb,76 BIT 6,(I?+dd)
cb,77 BIT 6,(I?+dd)
cb,78 BIT 7,(I?+dd)
cb,79 BIT 7,(I?+dd)
cb,7a BIT 7,(I?+dd)
cb,7b BIT 7,(I?+dd)
cb,7c BIT 7,(I?+dd)
cb,7d BIT 7,(I?+dd)
cb,7e BIT 7,(I?+dd)
cb,7f BIT 7,(I?+dd)
cb,80 RES 0,(I?+dd),B
cb,81 RES 0,(I?+dd),C
cb,82 RES 0,(I?+dd),D
cb,83 RES 0,(I?+dd),E
cb,84 RES 0,(I?+dd),H
cb,85 RES 0,(I?+dd),L
cb,86 RES 0,(I?+dd)
cb,87 RES 0,(I?+dd),A
cb,88 RES 1,(I?+dd),B
cb,89 RES 1,(I?+dd),C
cb,8a RES 1,(I?+dd),D
cb,8b RES 1,(I?+dd),E
cb,8c RES 1,(I?+dd),H
cb,8d RES 1,(I?+dd),L
cb,8e RES 1,(I?+dd)
cb,8f RES 1,(I?+dd),A
cb,90 RES 2,(I?+dd),B
cb,91 RES 2,(I?+dd),C
cb,92 RES 2,(I?+dd),D
cb,93 RES 2,(I?+dd),E
cb,94 RES 2,(I?+dd),H
cb,95 RES 2,(I?+dd),L
cb,96 RES 2,(I?+dd)
cb,97 RES 2,(I?+dd),A
cb,98 RES 3,(I?+dd),B
cb,99 RES 3,(I?+dd),C
cb,9a RES 3,(I?+dd),D
cb,9b RES 3,(I?+dd),E
cb,9c RES 3,(I?+dd),H
cb,9d RES 3,(I?+dd),L
cb,9e RES 3,(I?+dd)
cb,9f RES 3,(I?+dd),A
cb,a0 RES 4,(I?+dd),B
cb,a1 RES 4,(I?+dd),C
cb,a2 RES 4,(I?+dd),D
cb,a3 RES 4,(I?+dd),E
cb,a4 RES 4,(I?+dd),H
cb,a5 RES 4,(I?+dd),L
cb,a6 RES 4,(I?+dd)
cb,a7 RES 4,(I?+dd),A
cb,a8 RES 5,(I?+dd),B
cb,a9 RES 5,(I?+dd),C
cb,aa RES 5,(I?+dd),D
cb,ab RES 5,(I?+dd),E
cb,ac RES 5,(I?+dd),H
cb,ad RES 5,(I?+dd),L
cb,ae RES 5,(I?+dd)
cb,af RES 5,(I?+dd),A
cb,b0 RES 6,(I?+dd),B
cb,b1 RES 6,(I?+dd),C
cb,b2 RES 6,(I?+dd),D
cb,b3 RES 6,(I?+dd),E
cb,b4 RES 6,(I?+dd),H
cb,b5 RES 6,(I?+dd),L
cb,b6 RES 6,(I?+dd)
cb,b7 RES 6,(I?+dd),A
cb,b8 RES 7,(I?+dd),B
cb,b9 RES 7,(I?+dd),C
cb,ba RES 7,(I?+dd),D
cb,bb RES 7,(I?+dd),E
cb,bc RES 7,(I?+dd),H
cb,bd RES 7,(I?+dd),L
cb,be RES 7,(I?+dd)
cb,bf RES 7,(I?+dd),A
cb,c0 SET 0,(I?+dd),B
cb,c1 SET 0,(I?+dd),C
cb,c2 SET 0,(I?+dd),D
cb,c3 SET 0,(I?+dd),E
cb,c4 SET 0,(I?+dd),H
cb,c5 SET 0,(I?+dd),L
cb,c6 SET 0,(I?+dd)
cb,c7 SET 0,(I?+dd),A
cb,c8 SET 1,(I?+dd),B
cb,c9 SET 1,(I?+dd),C
cb,ca SET 1,(I?+dd),D
cb,cb SET 1,(I?+dd),E
cb,cc SET 1,(I?+dd),H
cb,cd SET 1,(I?+dd),L
cb,ce SET 1,(I?+dd)
cb,cf SET 1,(I?+dd),A
cb,d0 SET 2,(I?+dd),B
cb,d1 SET 2,(I?+dd),C
cb,d2 SET 2,(I?+dd),D
cb,d3 SET 2,(I?+dd),E
cb,d4 SET 2,(I?+dd),H
cb,d5 SET 2,(I?+dd),L
cb,d6 SET 2,(I?+dd)
cb,d7 SET 2,(I?+dd),A
cb,d8 SET 3,(I?+dd),B
cb,d9 SET 3,(I?+dd),C
cb,da SET 3,(I?+dd),D
cb,db SET 3,(I?+dd),E
cb,dc SET 3,(I?+dd),H
cb,dd SET 3,(I?+dd),L
cb,de SET 3,(I?+dd)
cb,df SET 3,(I?+dd),A
cb,e0 SET 4,(I?+dd),B
cb,e1 SET 4,(I?+dd),C
cb,e2 SET 4,(I?+dd),D
cb,e3 SET 4,(I?+dd),E
cb,e4 SET 4,(I?+dd),H
cb,e5 SET 4,(I?+dd),L
cb,e6 SET 4,(I?+dd)
cb,e7 SET 4,(I?+dd),A
cb,e8 SET 5,(I?+dd),B
cb,e9 SET 5,(I?+dd),C
cb,ea SET 5,(I?+dd),D
cb,eb SET 5,(I?+dd),E
cb,ec SET 5,(I?+dd),H
cb,ed SET 5,(I?+dd),L
cb,ee SET 5,(I?+dd)
cb,ef SET 5,(I?+dd),A
cb,f0 SET 6,(I?+dd),B
cb,f1 SET 6,(I?+dd),C
cb,f2 SET 6,(I?+dd),D
cb,f3 SET 6,(I?+dd),E
cb,f4 SET 6,(I?+dd),H
cb,f5 SET 6,(I?+dd),L
cb,f6 SET 6,(I?+dd)
cb,f7 SET 6,(I?+dd),A
cb,f8 SET 7,(I?+dd),B
cb,f9 SET 7,(I?+dd),C
cb,fa SET 7,(I?+dd),D
cb,fb SET 7,(I?+dd),E
cb,fc SET 7,(I?+dd),H
cb,fd SET 7,(I?+dd),L
cb,fe SET 7,(I?+dd)
cb,ff SET 7,(I?+dd),A
e1 POP I?
e3 EX (SP),I?
e5 PUSH I?
e9 JP (I?)
f9 LD SP,I?
".
(* tests/mnemonics_cycles.txt *)
Definition mnemonics_cycles : string := "# cy:bus - where ""cy"" is a cycle and ""bus"" is a value being put on an address bus
#  m1 - M1 cycle (opcode)
#  mr - memory read
#  mw - memory write
#  pr - I/O port read
#  pw - I/O port write
#  mq - MREQ access, memory read skipped (in case of relative jumps, the offset doesn't need to be read)
#  qr - memory read no MREQ (needed when split from mq)
#  x1,x2,x4,x5,x7 - one of internal cycles
#  <prereq> - a prerequisite for cycles (tail excluded)
#  |  - a head|tail cycles split point
#
# Placeholders for mnemonic arguments:
#  b   - a bit number 0 to 7
#  m   - interrupt modes: 0, 1, 2
#  r   - registers: B, C, D, E, H, L, A
#  q   - registers: B, C, D, E, I?H, I?L, A
#  q!  - registers: B, C, D, E, A
#  rr  - registers: BC, DE, HL, SP
#  qq  - registers: BC, DE, I?, SP
#  ss  - registers: BC, DE, HL, AF
#  cc  - conditions: NZ, Z, NC, C, PO, PE, P, M
#  cc! - conditions: NZ, Z, NC, C
#  pp  - a restart address: 00, 08, 10, 18, 20, 28, 30, 38
m1:0
  NOP
  LD r,r
  HALT
  ADD A,r
  ADC A,r
  SUB r
  SBC A,r
  AND r
  XOR r
  OR r
  CP r
  INC r
  DEC r
  EXX
  EX AF,AF'
  EX DE,HL
  DAA
  CPL
  CCF
  SCF
  DI
  EI
  RLA
  RRA
  RLCA
  RRCA
  JP (HL)

m1:0,m1:1
  NOP*
  RLC r
  RRC r
  RL r
  RR r
  SLA r
  SRA r
  SRL r
  SLL r
  BIT b,r
  SET b,r
  RES b,r
  NEG
  IM m
  LD q,I?H
  LD q,I?L
  LD I?H,q!
  LD I?L,q!
  ADD A,I?H
  ADD A,I?L
  ADC A,I?H
  ADC A,I?L
  SUB I?H
  SUB I?L
  SBC A,I?H
  SBC A,I?L
  AND I?H
  AND I?L
  XOR I?H
  XOR I?L
  OR I?H
  OR I?L
  CP I?H
  CP I?L
  INC I?H
  DEC I?H
  INC I?L
  DEC I?L
  JP (I?)

m1:0,m1:1,x1:ir+2
  LD A,I
  LD A,R
  LD I,A
  LD R,A

m1:0,x2:ir+1
  INC rr
  DEC rr
  LD SP,HL

m1:0,m1:1,x2:ir+2
  INC I?
  DEC I?
  LD SP,I?

m1:0,x7:ir+1
  ADD HL,rr

m1:0,m1:1,x7:ir+2
  ADD I?,qq

m1:0,m1:1,x7:ir+2
  ADC HL,rr
  SBC HL,rr

m1:0,mr:pc+1
  LD r,nn
  ADD A,nn
  ADC A,nn
  SUB nn
  SBC A,nn
  AND nn
  XOR nn
  OR nn
  CP nn

m1:0,m1:1,mr:pc+2
  LD I?H,nn
  LD I?L,nn

m1:0,mr:hl
  LD r,(HL)
  ADD A,(HL)
  ADC A,(HL)
  SUB (HL)
  SBC A,(HL)
  AND (HL)
  XOR (HL)
  OR (HL)
  CP (HL)

m1:0,mr:bc
  LD A,(BC)

m1:0,mr:de
  LD A,(DE)

m1:0,mw:hl
  LD (HL),r

m1:0,mw:bc
  LD (BC),A

m1:0,mw:de
  LD (DE),A

m1:0,m1:1,mr:pc+2,x5:pc+2,mr:ii+d
  LD r,(I?+dd)
  ADD A,(I?+dd)
  ADC A,(I?+dd)
  SUB (I?+dd)
  SBC A,(I?+dd)
  AND (I?+dd)
  XOR (I?+dd)
  OR (I?+dd)
  CP (I?+dd)

m1:0,m1:1,mr:pc+2,x5:pc+2,mw:ii+d
  LD (I?+dd),r

m1:0,m1:1,mr:hl,x1:hl
  BIT b,(HL)

m1:0,m1:1,mr:pc+2,mr:pc+3,x2:pc+3,mr:ii+d,x1:ii+d
  BIT b,(I?+dd)

m1:0,mr:pc+1,mr:pc+2
  LD rr,nnnn
  JP nnnn
  JP cc,nnnn

m1:0,m1:1,mr:pc+2,mr:pc+3
  LD I?,nnnn

m1:0,mr:pc+1,mw:hl
  LD (HL),nn

m1:0,m1:1,mr:pc+2,mr:pc+3,x2:pc+3,mw:ii+d
  LD (I?+dd),nn

m1:0,mr:pc+1,mr:pc+2,mr:nn
  LD A,(nnnn)

m1:0,mr:pc+1,mr:pc+2,mw:nn
  LD (nnnn),A

m1:0,mr:pc+1,mr:pc+2,mr:nn,mr:nn+1
  LD HL,(nnnn)

m1:0,mr:pc+1,mr:pc+2,mw:nn,mw:nn+1
  LD (nnnn),HL

m1:0,m1:1,mr:pc+2,mr:pc+3,mr:nn,mr:nn+1
  LD I?,(nnnn)

m1:0,m1:1,mr:pc+2,mr:pc+3,mw:nn,mw:nn+1
  LD (nnnn),I?

m1:0,m1:1,mr:pc+2,mr:pc+3,mr:nn,mr:nn+1
  LD rr,(nnnn) *

m1:0,m1:1,mr:pc+2,mr:pc+3,mw:nn,mw:nn+1
  LD (nnnn),rr *

m1:0,mr:hl,x1:hl,mw:hl
  INC (HL)
  DEC (HL)

m1:0,m1:1,mr:pc+2,x5:pc+2,mr:ii+d,x1:ii+d,mw:ii+d
  INC (I?+dd)
  DEC (I?+dd)

m1:0,m1:1,mr:hl,x1:hl,mw:hl
  SET b,(HL)
  RES b,(HL)
  RLC (HL)
  RRC (HL)
  RL (HL)
  RR (HL)
  SLA (HL)
  SRA (HL)
  SRL (HL)
  SLL (HL)

m1:0,m1:1,mr:pc+2,mr:pc+3,x2:pc+3,mr:ii+d,x1:ii+d,mw:ii+d
  SET b,(I?+dd)
  SET b,(I?+dd),r
  RES b,(I?+dd)
  RES b,(I?+dd),r
  RLC (I?+dd)
  RLC (I?+dd),r
  RRC (I?+dd)
  RRC (I?+dd),r
  RL (I?+dd)
  RL (I?+dd),r
  RR (I?+dd)
  RR (I?+dd),r
  SLA (I?+dd)
  SLA (I?+dd),r
  SRA (I?+dd)
  SRA (I?+dd),r
  SRL (I?+dd)
  SRL (I?+dd),r
  SLL (I?+dd)
  SLL (I?+dd),r

m1:0,mr:sp,mr:sp+1
  POP ss
  RET

m1:0,m1:1,mr:sp,mr:sp+1
  POP I?

m1:0,m1:1,mr:sp,mr:sp+1
  RETI
  RETN

<F!~cc>,m1:0,x1:ir+1,|,mr:sp,mr:sp+1
  RET cc

m1:0,x1:ir+1,mw:sp-1,mw:sp-2
  PUSH ss
  RST pp

m1:0,m1:1,x1:ir+2,mw:sp-1,mw:sp-2
  PUSH I?

m1:0,mr:pc+1,mr:pc+2,x1:pc+2,mw:sp-1,mw:sp-2
  CALL nnnn

<F!~cc>,m1:0,mr:pc+1,mr:pc+2,|,x1:pc+2,mw:sp-1,mw:sp-2
  CALL cc,nnnn

m1:0,mr:pc+1,x5:pc+1
  JR ee

<F!~cc>,m1:0,mq:pc+1,|,qr:pc+1,x5:pc+1
  JR cc!,ee

<B=1>,m1:0,x1:ir+1,mq:pc+1,|,qr:pc+1,x5:pc+1
  DJNZ ee

m1:0,m1:1,mr:hl,x4:hl,mw:hl
  RLD
  RRD

m1:0,mr:pc+1,pr:an
  IN A,(nn)

m1:0,mr:pc+1,pw:an
  OUT (nn),A

m1:0,m1:1,pr:bc
  IN r,(C)
  IN (C)

m1:0,m1:1,pw:bc
  OUT (C),r
  OUT (C)

m1:0,mr:sp,mr:sp+1,x1:sp+1,mw:sp+1,mw:sp,x2:sp
  EX (SP),HL

m1:0,m1:1,mr:sp,mr:sp+1,x1:sp+1,mw:sp+1,mw:sp,x2:sp
  EX (SP),I?

m1:0,m1:1,mr:hl,mw:de,x2:de
  LDI
  LDD

<BC=1>,m1:0,m1:1,mr:hl,mw:de,x2:de,|,x5:de
  LDIR
  LDDR

m1:0,m1:1,mr:hl,x5:hl
  CPI
  CPD

<BC=1||A=(HL)>,m1:0,m1:1,mr:hl,x5:hl,|,x5:hl
  CPIR
  CPDR

m1:0,m1:1,x1:ir+2,pr:bc,mw:hl
  INI
  IND

<B=1>,m1:0,m1:1,x1:ir+2,pr:bc,mw:hl,|,x5:hl
  INIR
  INDR

m1:0,m1:1,x1:ir+2,mr:hl,pw:bc-256
  OUTI
  OUTD

<B=1>,m1:0,m1:1,x1:ir+2,mr:hl,pw:bc-256,|,x5:bc-256
  OTIR
  OTDR
".
