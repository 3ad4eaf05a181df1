(** The instruction tables of opcodes.cpp and opcodes_ez80.cpp, generated from the source.
    Each row gives the argument pattern, the opcode bytes in array order, the fields
    instr_size, min_exectime, max_exectime, has_end_data, end_data, size and
    adl_exectime_penalty (0 when the source leaves it out). *)
From Verif Require Import Base State.

Definition row (args : string) (data : list Z) (isz tmin tmax : Z) (he : bool) (e sz adl : Z) : instr :=
  mkinstr (zs args) data isz tmin tmax he e sz adl.

(** opcodes.cpp:89-277. *)
Definition ld_instrs : list instr := [
  row "SP,HL" [249] 1 6 6 false 0 1 0;
  row "A,I" [87; 237] 2 9 9 false 0 2 0;
  row "A,R" [95; 237] 2 9 9 false 0 2 0;
  row "IXH,B" [96; 221] 2 8 8 false 0 2 0;
  row "IYH,B" [96; 253] 2 8 8 false 0 2 0;
  row "IXH,C" [97; 221] 2 8 8 false 0 2 0;
  row "IYH,C" [97; 253] 2 8 8 false 0 2 0;
  row "IXH,D" [98; 221] 2 8 8 false 0 2 0;
  row "IYH,D" [98; 253] 2 8 8 false 0 2 0;
  row "IXH,E" [99; 221] 2 8 8 false 0 2 0;
  row "IYH,E" [99; 253] 2 8 8 false 0 2 0;
  row "IXH,IXH" [100; 221] 2 8 8 false 0 2 0;
  row "IYH,IYH" [100; 253] 2 8 8 false 0 2 0;
  row "IXH,IXL" [101; 221] 2 8 8 false 0 2 0;
  row "IYH,IYL" [101; 253] 2 8 8 false 0 2 0;
  row "H,(IX@)" [102; 221] 2 19 19 false 0 3 0;
  row "H,(IY@)" [102; 253] 2 19 19 false 0 3 0;
  row "IXH,A" [103; 221] 2 8 8 false 0 2 0;
  row "IYH,A" [103; 253] 2 8 8 false 0 2 0;
  row "IXL,B" [104; 221] 2 8 8 false 0 2 0;
  row "IYL,B" [104; 253] 2 8 8 false 0 2 0;
  row "IXL,C" [105; 221] 2 8 8 false 0 2 0;
  row "IYL,C" [105; 253] 2 8 8 false 0 2 0;
  row "IXL,D" [106; 221] 2 8 8 false 0 2 0;
  row "IYL,D" [106; 253] 2 8 8 false 0 2 0;
  row "IXL,E" [107; 221] 2 8 8 false 0 2 0;
  row "IYL,E" [107; 253] 2 8 8 false 0 2 0;
  row "IXL,IXH" [108; 221] 2 8 8 false 0 2 0;
  row "IYL,IYH" [108; 253] 2 8 8 false 0 2 0;
  row "IXL,IXL" [109; 221] 2 8 8 false 0 2 0;
  row "IYL,IYL" [109; 253] 2 8 8 false 0 2 0;
  row "L,(IX@)" [110; 221] 2 19 19 false 0 3 0;
  row "L,(IY@)" [110; 253] 2 19 19 false 0 3 0;
  row "IXL,A" [111; 221] 2 8 8 false 0 2 0;
  row "IYL,A" [111; 253] 2 8 8 false 0 2 0;
  row "(*),IX" [34; 221] 2 20 20 false 0 4 0;
  row "(*),IY" [34; 253] 2 20 20 false 0 4 0;
  row "IXH,&" [38; 221] 2 11 11 false 0 3 0;
  row "IYH,&" [38; 253] 2 11 11 false 0 3 0;
  row "IX,(*)" [42; 221] 2 20 20 false 0 4 0;
  row "IY,(*)" [42; 253] 2 20 20 false 0 4 0;
  row "IXL,&" [46; 221] 2 11 11 false 0 3 0;
  row "IYL,&" [46; 253] 2 11 11 false 0 3 0;
  row "B,IXH" [68; 221] 2 8 8 false 0 2 0;
  row "B,IYH" [68; 253] 2 8 8 false 0 2 0;
  row "B,IXL" [69; 221] 2 8 8 false 0 2 0;
  row "B,IYL" [69; 253] 2 8 8 false 0 2 0;
  row "B,(IX@)" [70; 221] 2 19 19 false 0 3 0;
  row "B,(IY@)" [70; 253] 2 19 19 false 0 3 0;
  row "C,IXH" [76; 221] 2 8 8 false 0 2 0;
  row "C,IYH" [76; 253] 2 8 8 false 0 2 0;
  row "C,IXL" [77; 221] 2 8 8 false 0 2 0;
  row "C,IYL" [77; 253] 2 8 8 false 0 2 0;
  row "C,(IX@)" [78; 221] 2 19 19 false 0 3 0;
  row "C,(IY@)" [78; 253] 2 19 19 false 0 3 0;
  row "D,IXH" [84; 221] 2 8 8 false 0 2 0;
  row "D,IYH" [84; 253] 2 8 8 false 0 2 0;
  row "D,IXL" [85; 221] 2 8 8 false 0 2 0;
  row "D,IYL" [85; 253] 2 8 8 false 0 2 0;
  row "D,(IX@)" [86; 221] 2 19 19 false 0 3 0;
  row "D,(IY@)" [86; 253] 2 19 19 false 0 3 0;
  row "E,IXH" [92; 221] 2 8 8 false 0 2 0;
  row "E,IYH" [92; 253] 2 8 8 false 0 2 0;
  row "E,IXL" [93; 221] 2 8 8 false 0 2 0;
  row "E,IYL" [93; 253] 2 8 8 false 0 2 0;
  row "E,(IX@)" [94; 221] 2 19 19 false 0 3 0;
  row "E,(IY@)" [94; 253] 2 19 19 false 0 3 0;
  row "(IX@),B" [112; 221] 2 19 19 false 0 3 0;
  row "(IY@),B" [112; 253] 2 19 19 false 0 3 0;
  row "(IX@),C" [113; 221] 2 19 19 false 0 3 0;
  row "(IY@),C" [113; 253] 2 19 19 false 0 3 0;
  row "(IX@),D" [114; 221] 2 19 19 false 0 3 0;
  row "(IY@),D" [114; 253] 2 19 19 false 0 3 0;
  row "(IX@),E" [115; 221] 2 19 19 false 0 3 0;
  row "(IY@),E" [115; 253] 2 19 19 false 0 3 0;
  row "(IX@),H" [116; 221] 2 19 19 false 0 3 0;
  row "(IY@),H" [116; 253] 2 19 19 false 0 3 0;
  row "(IX@),L" [117; 221] 2 19 19 false 0 3 0;
  row "(IY@),L" [117; 253] 2 19 19 false 0 3 0;
  row "(IX@),A" [119; 221] 2 19 19 false 0 3 0;
  row "(IY@),A" [119; 253] 2 19 19 false 0 3 0;
  row "A,IXH" [124; 221] 2 8 8 false 0 2 0;
  row "A,IYH" [124; 253] 2 8 8 false 0 2 0;
  row "A,IXL" [125; 221] 2 8 8 false 0 2 0;
  row "A,IYL" [125; 253] 2 8 8 false 0 2 0;
  row "A,(IX@)" [126; 221] 2 19 19 false 0 3 0;
  row "A,(IY@)" [126; 253] 2 19 19 false 0 3 0;
  row "(IX@),&" [54; 221] 2 19 19 false 0 4 0;
  row "(IY@),&" [54; 253] 2 19 19 false 0 4 0;
  row "SP,IX" [249; 221] 2 10 10 false 0 2 0;
  row "SP,IY" [249; 253] 2 10 10 false 0 2 0;
  row "B,B" [64] 1 4 4 false 0 1 0;
  row "B,C" [65] 1 4 4 false 0 1 0;
  row "B,D" [66] 1 4 4 false 0 1 0;
  row "B,E" [67] 1 4 4 false 0 1 0;
  row "B,H" [68] 1 4 4 false 0 1 0;
  row "B,L" [69] 1 4 4 false 0 1 0;
  row "B,(HL)" [70] 1 7 7 false 0 1 0;
  row "B,A" [71] 1 4 4 false 0 1 0;
  row "C,B" [72] 1 4 4 false 0 1 0;
  row "C,C" [73] 1 4 4 false 0 1 0;
  row "C,D" [74] 1 4 4 false 0 1 0;
  row "C,E" [75] 1 4 4 false 0 1 0;
  row "C,H" [76] 1 4 4 false 0 1 0;
  row "C,L" [77] 1 4 4 false 0 1 0;
  row "C,(HL)" [78] 1 7 7 false 0 1 0;
  row "C,A" [79] 1 4 4 false 0 1 0;
  row "D,B" [80] 1 4 4 false 0 1 0;
  row "D,C" [81] 1 4 4 false 0 1 0;
  row "D,D" [82] 1 4 4 false 0 1 0;
  row "D,E" [83] 1 4 4 false 0 1 0;
  row "D,H" [84] 1 4 4 false 0 1 0;
  row "D,L" [85] 1 4 4 false 0 1 0;
  row "D,(HL)" [86] 1 7 7 false 0 1 0;
  row "D,A" [87] 1 4 4 false 0 1 0;
  row "E,B" [88] 1 4 4 false 0 1 0;
  row "E,C" [89] 1 4 4 false 0 1 0;
  row "E,D" [90] 1 4 4 false 0 1 0;
  row "E,E" [91] 1 4 4 false 0 1 0;
  row "E,H" [92] 1 4 4 false 0 1 0;
  row "E,L" [93] 1 4 4 false 0 1 0;
  row "E,(HL)" [94] 1 7 7 false 0 1 0;
  row "E,A" [95] 1 4 4 false 0 1 0;
  row "H,B" [96] 1 4 4 false 0 1 0;
  row "H,C" [97] 1 4 4 false 0 1 0;
  row "H,D" [98] 1 4 4 false 0 1 0;
  row "H,E" [99] 1 4 4 false 0 1 0;
  row "H,H" [100] 1 4 4 false 0 1 0;
  row "H,L" [101] 1 4 4 false 0 1 0;
  row "H,(HL)" [102] 1 7 7 false 0 1 0;
  row "H,A" [103] 1 4 4 false 0 1 0;
  row "L,B" [104] 1 4 4 false 0 1 0;
  row "L,C" [105] 1 4 4 false 0 1 0;
  row "L,D" [106] 1 4 4 false 0 1 0;
  row "L,E" [107] 1 4 4 false 0 1 0;
  row "L,H" [108] 1 4 4 false 0 1 0;
  row "L,L" [109] 1 4 4 false 0 1 0;
  row "L,(HL)" [110] 1 7 7 false 0 1 0;
  row "L,A" [111] 1 4 4 false 0 1 0;
  row "(HL),B" [112] 1 7 7 false 0 1 0;
  row "(HL),C" [113] 1 7 7 false 0 1 0;
  row "(HL),D" [114] 1 7 7 false 0 1 0;
  row "(HL),E" [115] 1 7 7 false 0 1 0;
  row "(HL),H" [116] 1 7 7 false 0 1 0;
  row "(HL),L" [117] 1 7 7 false 0 1 0;
  row "(HL),A" [119] 1 7 7 false 0 1 0;
  row "A,B" [120] 1 4 4 false 0 1 0;
  row "A,C" [121] 1 4 4 false 0 1 0;
  row "A,D" [122] 1 4 4 false 0 1 0;
  row "A,E" [123] 1 4 4 false 0 1 0;
  row "A,H" [124] 1 4 4 false 0 1 0;
  row "A,L" [125] 1 4 4 false 0 1 0;
  row "A,(HL)" [126] 1 7 7 false 0 1 0;
  row "A,A" [127] 1 4 4 false 0 1 0;
  row "(BC),A" [2] 1 7 7 false 0 1 0;
  row "B,&" [6] 1 7 7 false 0 2 0;
  row "A,(BC)" [10] 1 7 7 false 0 1 0;
  row "C,&" [14] 1 7 7 false 0 2 0;
  row "(DE),A" [18] 1 7 7 false 0 1 0;
  row "D,&" [22] 1 7 7 false 0 2 0;
  row "A,(DE)" [26] 1 7 7 false 0 1 0;
  row "E,&" [30] 1 7 7 false 0 2 0;
  row "(*),HL" [34] 1 16 16 false 0 3 0;
  row "H,&" [38] 1 7 7 false 0 2 0;
  row "HL,(*)" [42] 1 16 16 false 0 3 0;
  row "L,&" [46] 1 7 7 false 0 2 0;
  row "(*),A" [50] 1 13 13 false 0 3 0;
  row "(HL),&" [54] 1 10 10 false 0 2 0;
  row "A,(*)" [58] 1 13 13 false 0 3 0;
  row "A,&" [62] 1 7 7 false 0 2 0;
  row "(*),BC" [67; 237] 2 20 20 false 0 4 0;
  row "I,A" [71; 237] 2 9 9 false 0 2 0;
  row "BC,(*)" [75; 237] 2 20 20 false 0 4 0;
  row "R,A" [79; 237] 2 9 9 false 0 2 0;
  row "(*),DE" [83; 237] 2 20 20 false 0 4 0;
  row "DE,(*)" [91; 237] 2 20 20 false 0 4 0;
  row "(*),HL" [99; 237] 2 20 20 false 0 4 0;
  row "HL,(*)" [107; 237] 2 20 20 false 0 4 0;
  row "(*),SP" [115; 237] 2 20 20 false 0 4 0;
  row "SP,(*)" [123; 237] 2 20 20 false 0 4 0;
  row "HL,*" [33] 1 10 10 false 0 3 0;
  row "BC,*" [1] 1 10 10 false 0 3 0;
  row "DE,*" [17] 1 10 10 false 0 3 0;
  row "IX,*" [33; 221] 2 14 14 false 0 4 0;
  row "IY,*" [33; 253] 2 14 14 false 0 4 0;
  row "SP,*" [49] 1 10 10 false 0 3 0 ].

(** opcodes.cpp:912-921. *)
Definition call_instrs : list instr := [
  row "NZ,*" [196] 1 10 17 false 0 3 0;
  row "Z,*" [204] 1 10 17 false 0 3 0;
  row "NC,*" [212] 1 10 17 false 0 3 0;
  row "C,*" [220] 1 10 17 false 0 3 0;
  row "PO,*" [228] 1 10 17 false 0 3 0;
  row "PE,*" [236] 1 10 17 false 0 3 0;
  row "P,*" [244] 1 10 17 false 0 3 0;
  row "M,*" [252] 1 10 17 false 0 3 0;
  row "*" [205] 1 17 17 false 0 3 0 ].

(** opcodes.cpp:582-591. *)
Definition ret_instrs : list instr := [
  row "" [201] 1 10 10 false 0 1 0;
  row "NZ" [192] 1 5 11 false 0 1 0;
  row "Z" [200] 1 5 11 false 0 1 0;
  row "NC" [208] 1 5 11 false 0 1 0;
  row "C" [216] 1 5 11 false 0 1 0;
  row "PO" [224] 1 5 11 false 0 1 0;
  row "PE" [232] 1 5 11 false 0 1 0;
  row "P" [240] 1 5 11 false 0 1 0;
  row "M" [248] 1 5 11 false 0 1 0 ].

(** opcodes.cpp:82-87. *)
Definition jr_instrs : list instr := [
  row "NZ,%" [32] 1 7 12 false 0 2 0;
  row "Z,%" [40] 1 7 12 false 0 2 0;
  row "NC,%" [48] 1 7 12 false 0 2 0;
  row "C,%" [56] 1 7 12 false 0 2 0;
  row "%" [24] 1 12 12 false 0 2 0 ].

(** opcodes.cpp:68-80. *)
Definition jp_instrs : list instr := [
  row "(IX)" [233; 221] 2 8 8 false 0 2 0;
  row "(IY)" [233; 253] 2 8 8 false 0 2 0;
  row "NZ,*" [194] 1 10 10 false 0 3 0;
  row "Z,*" [202] 1 10 10 false 0 3 0;
  row "NC,*" [210] 1 10 10 false 0 3 0;
  row "C,*" [218] 1 10 10 false 0 3 0;
  row "PO,*" [226] 1 10 10 false 0 3 0;
  row "(HL)" [233] 1 4 4 false 0 1 0;
  row "PE,*" [234] 1 10 10 false 0 3 0;
  row "P,*" [242] 1 10 10 false 0 3 0;
  row "M,*" [250] 1 10 10 false 0 3 0;
  row "*" [195] 1 10 10 false 0 3 0 ].

(** opcodes.cpp:384-411. *)
Definition add_instrs : list instr := [
  row "IX,BC" [9; 221] 2 15 15 false 0 2 0;
  row "IY,BC" [9; 253] 2 15 15 false 0 2 0;
  row "IX,DE" [25; 221] 2 15 15 false 0 2 0;
  row "IY,DE" [25; 253] 2 15 15 false 0 2 0;
  row "IX,IX" [41; 221] 2 15 15 false 0 2 0;
  row "IY,IY" [41; 253] 2 15 15 false 0 2 0;
  row "IX,SP" [57; 221] 2 15 15 false 0 2 0;
  row "IY,SP" [57; 253] 2 15 15 false 0 2 0;
  row "A,IXH" [132; 221] 2 8 8 false 0 2 0;
  row "A,IYH" [132; 253] 2 8 8 false 0 2 0;
  row "A,IXL" [133; 221] 2 8 8 false 0 2 0;
  row "A,IYL" [133; 253] 2 8 8 false 0 2 0;
  row "A,(IX@)" [134; 221] 2 19 19 false 0 3 0;
  row "A,(IY@)" [134; 253] 2 19 19 false 0 3 0;
  row "A,B" [128] 1 4 4 false 0 1 0;
  row "A,C" [129] 1 4 4 false 0 1 0;
  row "A,D" [130] 1 4 4 false 0 1 0;
  row "A,E" [131] 1 4 4 false 0 1 0;
  row "A,H" [132] 1 4 4 false 0 1 0;
  row "A,L" [133] 1 4 4 false 0 1 0;
  row "A,(HL)" [134] 1 7 7 false 0 1 0;
  row "A,A" [135] 1 4 4 false 0 1 0;
  row "HL,BC" [9] 1 11 11 false 0 1 0;
  row "HL,DE" [25] 1 11 11 false 0 1 0;
  row "HL,HL" [41] 1 11 11 false 0 1 0;
  row "HL,SP" [57] 1 11 11 false 0 1 0;
  row "A,&" [198] 1 7 7 false 0 2 0 ].

(** opcodes.cpp:497-517. *)
Definition inc_instrs : list instr := [
  row "IX" [35; 221] 2 10 10 false 0 2 0;
  row "IY" [35; 253] 2 10 10 false 0 2 0;
  row "IXH" [36; 221] 2 8 8 false 0 2 0;
  row "IYH" [36; 253] 2 8 8 false 0 2 0;
  row "IXL" [44; 221] 2 8 8 false 0 2 0;
  row "IYL" [44; 253] 2 8 8 false 0 2 0;
  row "(IX@)" [52; 221] 2 23 23 false 0 3 0;
  row "(IY@)" [52; 253] 2 23 23 false 0 3 0;
  row "BC" [3] 1 6 6 false 0 1 0;
  row "B" [4] 1 4 4 false 0 1 0;
  row "C" [12] 1 4 4 false 0 1 0;
  row "DE" [19] 1 6 6 false 0 1 0;
  row "D" [20] 1 4 4 false 0 1 0;
  row "E" [28] 1 4 4 false 0 1 0;
  row "HL" [35] 1 6 6 false 0 1 0;
  row "H" [36] 1 4 4 false 0 1 0;
  row "L" [44] 1 4 4 false 0 1 0;
  row "SP" [51] 1 6 6 false 0 1 0;
  row "(HL)" [52] 1 11 11 false 0 1 0;
  row "A" [60] 1 4 4 false 0 1 0 ].

(** opcodes.cpp:548-554. *)
Definition pop_instrs : list instr := [
  row "IX" [225; 221] 2 14 14 false 0 2 0;
  row "IY" [225; 253] 2 14 14 false 0 2 0;
  row "BC" [193] 1 10 10 false 0 1 0;
  row "DE" [209] 1 10 10 false 0 1 0;
  row "HL" [225] 1 10 10 false 0 1 0;
  row "AF" [241] 1 10 10 false 0 1 0 ].

(** opcodes.cpp:959-965. *)
Definition push_instrs : list instr := [
  row "IX" [229; 221] 2 15 15 false 0 2 0;
  row "IY" [229; 253] 2 15 15 false 0 2 0;
  row "BC" [197] 1 11 11 false 0 1 0;
  row "DE" [213] 1 11 11 false 0 1 0;
  row "HL" [229] 1 11 11 false 0 1 0;
  row "AF" [245] 1 11 11 false 0 1 0 ].

(** opcodes.cpp:472-492. *)
Definition dec_instrs : list instr := [
  row "IXH" [37; 221] 2 8 8 false 0 2 0;
  row "IYH" [37; 253] 2 8 8 false 0 2 0;
  row "IX" [43; 221] 2 10 10 false 0 2 0;
  row "IY" [43; 253] 2 10 10 false 0 2 0;
  row "IXL" [45; 221] 2 8 8 false 0 2 0;
  row "IYL" [45; 253] 2 8 8 false 0 2 0;
  row "(IX@)" [53; 221] 2 23 23 false 0 3 0;
  row "(IY@)" [53; 253] 2 23 23 false 0 3 0;
  row "B" [5] 1 4 4 false 0 1 0;
  row "BC" [11] 1 6 6 false 0 1 0;
  row "C" [13] 1 4 4 false 0 1 0;
  row "D" [21] 1 4 4 false 0 1 0;
  row "DE" [27] 1 6 6 false 0 1 0;
  row "E" [29] 1 4 4 false 0 1 0;
  row "H" [37] 1 4 4 false 0 1 0;
  row "HL" [43] 1 6 6 false 0 1 0;
  row "L" [45] 1 4 4 false 0 1 0;
  row "(HL)" [53] 1 11 11 false 0 1 0;
  row "SP" [59] 1 6 6 false 0 1 0;
  row "A" [61] 1 4 4 false 0 1 0 ].

(** opcodes.cpp:7-37. *)
Definition cp_instrs : list instr := [
  row "A,IXH" [188; 221] 2 8 8 false 0 2 0;
  row "A,IYH" [188; 253] 2 8 8 false 0 2 0;
  row "A,IXL" [189; 221] 2 8 8 false 0 2 0;
  row "A,IYL" [189; 253] 2 8 8 false 0 2 0;
  row "A,(IX@)" [190; 221] 2 19 19 false 0 3 0;
  row "A,(IY@)" [190; 253] 2 19 19 false 0 3 0;
  row "A,B" [184] 1 4 4 false 0 1 0;
  row "A,C" [185] 1 4 4 false 0 1 0;
  row "A,D" [186] 1 4 4 false 0 1 0;
  row "A,E" [187] 1 4 4 false 0 1 0;
  row "A,H" [188] 1 4 4 false 0 1 0;
  row "A,L" [189] 1 4 4 false 0 1 0;
  row "A,(HL)" [190] 1 7 7 false 0 1 0;
  row "A,A" [191] 1 4 4 false 0 1 0;
  row "A,&" [254] 1 7 7 false 0 2 0;
  row "IXH" [188; 221] 2 8 8 false 0 2 0;
  row "IYH" [188; 253] 2 8 8 false 0 2 0;
  row "IXL" [189; 221] 2 8 8 false 0 2 0;
  row "IYL" [189; 253] 2 8 8 false 0 2 0;
  row "(IX@)" [190; 221] 2 19 19 false 0 3 0;
  row "(IY@)" [190; 253] 2 19 19 false 0 3 0;
  row "B" [184] 1 4 4 false 0 1 0;
  row "C" [185] 1 4 4 false 0 1 0;
  row "D" [186] 1 4 4 false 0 1 0;
  row "E" [187] 1 4 4 false 0 1 0;
  row "H" [188] 1 4 4 false 0 1 0;
  row "L" [189] 1 4 4 false 0 1 0;
  row "(HL)" [190] 1 7 7 false 0 1 0;
  row "A" [191] 1 4 4 false 0 1 0;
  row "&" [254] 1 7 7 false 0 2 0 ].

(** opcodes.cpp:279-309. *)
Definition or_instrs : list instr := [
  row "A,IXH" [180; 221] 2 8 8 false 0 2 0;
  row "A,IYH" [180; 253] 2 8 8 false 0 2 0;
  row "A,IXL" [181; 221] 2 8 8 false 0 2 0;
  row "A,IYL" [181; 253] 2 8 8 false 0 2 0;
  row "A,(IX@)" [182; 221] 2 19 19 false 0 3 0;
  row "A,(IY@)" [182; 253] 2 19 19 false 0 3 0;
  row "A,B" [176] 1 4 4 false 0 1 0;
  row "A,C" [177] 1 4 4 false 0 1 0;
  row "A,D" [178] 1 4 4 false 0 1 0;
  row "A,E" [179] 1 4 4 false 0 1 0;
  row "A,H" [180] 1 4 4 false 0 1 0;
  row "A,L" [181] 1 4 4 false 0 1 0;
  row "A,(HL)" [182] 1 7 7 false 0 1 0;
  row "A,A" [183] 1 4 4 false 0 1 0;
  row "A,&" [246] 1 7 7 false 0 2 0;
  row "IXH" [180; 221] 2 8 8 false 0 2 0;
  row "IYH" [180; 253] 2 8 8 false 0 2 0;
  row "IXL" [181; 221] 2 8 8 false 0 2 0;
  row "IYL" [181; 253] 2 8 8 false 0 2 0;
  row "(IX@)" [182; 221] 2 19 19 false 0 3 0;
  row "(IY@)" [182; 253] 2 19 19 false 0 3 0;
  row "B" [176] 1 4 4 false 0 1 0;
  row "C" [177] 1 4 4 false 0 1 0;
  row "D" [178] 1 4 4 false 0 1 0;
  row "E" [179] 1 4 4 false 0 1 0;
  row "H" [180] 1 4 4 false 0 1 0;
  row "L" [181] 1 4 4 false 0 1 0;
  row "(HL)" [182] 1 7 7 false 0 1 0;
  row "A" [183] 1 4 4 false 0 1 0;
  row "&" [246] 1 7 7 false 0 2 0 ].

(** opcodes.cpp:45-50. *)
Definition ex_instrs : list instr := [
  row "(SP),IX" [227; 221] 2 23 23 false 0 2 0;
  row "(SP),IY" [227; 253] 2 23 23 false 0 2 0;
  row "AF,AF'" [8] 1 4 4 false 0 1 0;
  row "(SP),HL" [227] 1 19 19 false 0 1 0;
  row "DE,HL" [235] 1 4 4 false 0 1 0 ].

(** opcodes.cpp:880-910. *)
Definition xor_instrs : list instr := [
  row "A,IXH" [172; 221] 2 0 0 false 0 2 0;
  row "A,IYH" [172; 253] 2 0 0 false 0 2 0;
  row "A,IXL" [173; 221] 2 0 0 false 0 2 0;
  row "A,IYL" [173; 253] 2 0 0 false 0 2 0;
  row "A,(IX@)" [174; 221] 2 19 19 false 0 3 0;
  row "A,(IY@)" [174; 253] 2 19 19 false 0 3 0;
  row "A,A" [175] 1 4 4 false 0 1 0;
  row "A,B" [168] 1 4 4 false 0 1 0;
  row "A,C" [169] 1 4 4 false 0 1 0;
  row "A,D" [170] 1 4 4 false 0 1 0;
  row "A,E" [171] 1 4 4 false 0 1 0;
  row "A,H" [172] 1 4 4 false 0 1 0;
  row "A,L" [173] 1 4 4 false 0 1 0;
  row "A,(HL)" [174] 1 7 7 false 0 1 0;
  row "A,&" [238] 1 7 7 false 0 2 0;
  row "IXH" [172; 221] 2 0 0 false 0 2 0;
  row "IYH" [172; 253] 2 0 0 false 0 2 0;
  row "IXL" [173; 221] 2 0 0 false 0 2 0;
  row "IYL" [173; 253] 2 0 0 false 0 2 0;
  row "(IX@)" [174; 221] 2 19 19 false 0 3 0;
  row "(IY@)" [174; 253] 2 19 19 false 0 3 0;
  row "A" [175] 1 4 4 false 0 1 0;
  row "B" [168] 1 4 4 false 0 1 0;
  row "C" [169] 1 4 4 false 0 1 0;
  row "D" [170] 1 4 4 false 0 1 0;
  row "E" [171] 1 4 4 false 0 1 0;
  row "H" [172] 1 4 4 false 0 1 0;
  row "L" [173] 1 4 4 false 0 1 0;
  row "(HL)" [174] 1 7 7 false 0 1 0;
  row "&" [238] 1 7 7 false 0 2 0 ].

(** opcodes.cpp:494-495. *)
Definition exx_instrs : list instr := [
  row "" [217] 1 4 4 false 0 1 0 ].

(** opcodes.cpp:848-878. *)
Definition sub_instrs : list instr := [
  row "A,IXH" [148; 221] 2 0 0 false 0 2 0;
  row "A,IYH" [148; 253] 2 0 0 false 0 2 0;
  row "A,IXL" [149; 221] 2 0 0 false 0 2 0;
  row "A,IYL" [149; 253] 2 0 0 false 0 2 0;
  row "A,(IX@)" [150; 221] 2 19 19 false 0 3 0;
  row "A,(IY@)" [150; 253] 2 19 19 false 0 3 0;
  row "A,B" [144] 1 4 4 false 0 1 0;
  row "A,C" [145] 1 4 4 false 0 1 0;
  row "A,D" [146] 1 4 4 false 0 1 0;
  row "A,E" [147] 1 4 4 false 0 1 0;
  row "A,H" [148] 1 4 4 false 0 1 0;
  row "A,L" [149] 1 4 4 false 0 1 0;
  row "A,(HL)" [150] 1 7 7 false 0 1 0;
  row "A,A" [151] 1 4 4 false 0 1 0;
  row "A,&" [214] 1 7 7 false 0 2 0;
  row "IXH" [148; 221] 2 0 0 false 0 2 0;
  row "IYH" [148; 253] 2 0 0 false 0 2 0;
  row "IXL" [149; 221] 2 0 0 false 0 2 0;
  row "IYL" [149; 253] 2 0 0 false 0 2 0;
  row "(IX@)" [150; 221] 2 19 19 false 0 3 0;
  row "(IY@)" [150; 253] 2 19 19 false 0 3 0;
  row "B" [144] 1 4 4 false 0 1 0;
  row "C" [145] 1 4 4 false 0 1 0;
  row "D" [146] 1 4 4 false 0 1 0;
  row "E" [147] 1 4 4 false 0 1 0;
  row "H" [148] 1 4 4 false 0 1 0;
  row "L" [149] 1 4 4 false 0 1 0;
  row "(HL)" [150] 1 7 7 false 0 1 0;
  row "A" [151] 1 4 4 false 0 1 0;
  row "&" [214] 1 7 7 false 0 2 0 ].

(** opcodes.cpp:413-443. *)
Definition and_instrs : list instr := [
  row "A,IXH" [164; 221] 2 8 8 false 0 2 0;
  row "A,IYH" [164; 253] 2 8 8 false 0 2 0;
  row "A,IXL" [165; 221] 2 8 8 false 0 2 0;
  row "A,IYL" [165; 253] 2 8 8 false 0 2 0;
  row "A,(IX@)" [166; 221] 2 19 19 false 0 3 0;
  row "A,(IY@)" [166; 253] 2 19 19 false 0 3 0;
  row "A,B" [160] 1 4 4 false 0 1 0;
  row "A,C" [161] 1 4 4 false 0 1 0;
  row "A,D" [162] 1 4 4 false 0 1 0;
  row "A,E" [163] 1 4 4 false 0 1 0;
  row "A,H" [164] 1 4 4 false 0 1 0;
  row "A,L" [165] 1 4 4 false 0 1 0;
  row "A,(HL)" [166] 1 7 7 false 0 1 0;
  row "A,A" [167] 1 4 4 false 0 1 0;
  row "A,&" [230] 1 7 7 false 0 2 0;
  row "IXH" [164; 221] 2 8 8 false 0 2 0;
  row "IYH" [164; 253] 2 8 8 false 0 2 0;
  row "IXL" [165; 221] 2 8 8 false 0 2 0;
  row "IYL" [165; 253] 2 8 8 false 0 2 0;
  row "(IX@)" [166; 221] 2 19 19 false 0 3 0;
  row "(IY@)" [166; 253] 2 19 19 false 0 3 0;
  row "B" [160] 1 4 4 false 0 1 0;
  row "C" [161] 1 4 4 false 0 1 0;
  row "D" [162] 1 4 4 false 0 1 0;
  row "E" [163] 1 4 4 false 0 1 0;
  row "H" [164] 1 4 4 false 0 1 0;
  row "L" [165] 1 4 4 false 0 1 0;
  row "(HL)" [166] 1 7 7 false 0 1 0;
  row "A" [167] 1 4 4 false 0 1 0;
  row "&" [230] 1 7 7 false 0 2 0 ].

(** opcodes.cpp:692-716. *)
Definition set_instrs : list instr := [
  row "B,^,(IX@)" [203; 221] 2 0 0 true 192 4 0;
  row "B,^,(IY@)" [203; 253] 2 0 0 true 192 4 0;
  row "C,^,(IX@)" [203; 221] 2 0 0 true 193 4 0;
  row "C,^,(IY@)" [203; 253] 2 0 0 true 193 4 0;
  row "D,^,(IX@)" [203; 221] 2 0 0 true 194 4 0;
  row "D,^,(IY@)" [203; 253] 2 0 0 true 194 4 0;
  row "E,^,(IX@)" [203; 221] 2 0 0 true 195 4 0;
  row "E,^,(IY@)" [203; 253] 2 0 0 true 195 4 0;
  row "H,^,(IX@)" [203; 221] 2 0 0 true 196 4 0;
  row "H,^,(IY@)" [203; 253] 2 0 0 true 196 4 0;
  row "L,^,(IX@)" [203; 221] 2 0 0 true 197 4 0;
  row "L,^,(IY@)" [203; 253] 2 0 0 true 197 4 0;
  row "^,(IX@)" [203; 221] 2 23 23 true 198 4 0;
  row "^,(IY@)" [203; 253] 2 23 23 true 198 4 0;
  row "A,^,(IX@)" [203; 221] 2 0 0 true 199 4 0;
  row "A,^,(IY@)" [203; 253] 2 0 0 true 199 4 0;
  row "^,B" [203] 1 8 8 true 192 2 0;
  row "^,C" [203] 1 8 8 true 193 2 0;
  row "^,D" [203] 1 8 8 true 194 2 0;
  row "^,E" [203] 1 8 8 true 195 2 0;
  row "^,H" [203] 1 8 8 true 196 2 0;
  row "^,L" [203] 1 8 8 true 197 2 0;
  row "^,(HL)" [203] 1 15 15 true 198 2 0;
  row "^,A" [203] 1 8 8 true 199 2 0 ].

(** opcodes.cpp:445-455. *)
Definition bit_instrs : list instr := [
  row "^,(IX@)" [203; 221] 2 23 23 true 70 4 0;
  row "^,(IY@)" [203; 253] 2 23 23 true 70 4 0;
  row "^,B" [203] 1 8 8 true 64 2 0;
  row "^,C" [203] 1 8 8 true 65 2 0;
  row "^,D" [203] 1 8 8 true 66 2 0;
  row "^,E" [203] 1 8 8 true 67 2 0;
  row "^,H" [203] 1 8 8 true 68 2 0;
  row "^,L" [203] 1 8 8 true 69 2 0;
  row "^,(HL)" [203] 1 12 12 true 70 2 0;
  row "^,A" [203] 1 8 8 true 71 2 0 ].

(** opcodes.cpp:929-930. *)
Definition djnz_instrs : list instr := [
  row "%" [16] 1 8 13 false 0 2 0 ].

(** opcodes.cpp:625-626. *)
Definition rra_instrs : list instr := [
  row "" [31] 1 4 4 false 0 1 0 ].

(** opcodes.cpp:337-361. *)
Definition rr_instrs : list instr := [
  row "B,(IX@)" [203; 221] 2 23 23 true 24 4 0;
  row "B,(IY@)" [203; 253] 2 23 23 true 24 4 0;
  row "C,(IX@)" [203; 221] 2 23 23 true 25 4 0;
  row "C,(IY@)" [203; 253] 2 23 23 true 25 4 0;
  row "D,(IX@)" [203; 221] 2 23 23 true 26 4 0;
  row "D,(IY@)" [203; 253] 2 23 23 true 26 4 0;
  row "E,(IX@)" [203; 221] 2 23 23 true 27 4 0;
  row "E,(IY@)" [203; 253] 2 23 23 true 27 4 0;
  row "H,(IX@)" [203; 221] 2 23 23 true 28 4 0;
  row "H,(IY@)" [203; 253] 2 23 23 true 28 4 0;
  row "L,(IX@)" [203; 221] 2 23 23 true 29 4 0;
  row "L,(IY@)" [203; 253] 2 23 23 true 29 4 0;
  row "(IX@)" [203; 221] 2 23 23 true 30 4 0;
  row "(IY@)" [203; 253] 2 23 23 true 30 4 0;
  row "A,(IX@)" [203; 221] 2 23 23 true 31 4 0;
  row "A,(IY@)" [203; 253] 2 23 23 true 31 4 0;
  row "B" [24; 203] 2 8 8 false 0 2 0;
  row "C" [25; 203] 2 8 8 false 0 2 0;
  row "D" [26; 203] 2 8 8 false 0 2 0;
  row "E" [27; 203] 2 8 8 false 0 2 0;
  row "H" [28; 203] 2 8 8 false 0 2 0;
  row "L" [29; 203] 2 8 8 false 0 2 0;
  row "(HL)" [30; 203] 2 15 15 false 0 2 0;
  row "A" [31; 203] 2 8 8 false 0 2 0 ].

(** opcodes.cpp:796-820. *)
Definition sra_instrs : list instr := [
  row "B,(IX@)" [203; 221] 2 0 0 true 40 4 0;
  row "B,(IY@)" [203; 253] 2 0 0 true 40 4 0;
  row "C,(IX@)" [203; 221] 2 0 0 true 41 4 0;
  row "C,(IY@)" [203; 253] 2 0 0 true 41 4 0;
  row "D,(IX@)" [203; 221] 2 0 0 true 42 4 0;
  row "D,(IY@)" [203; 253] 2 0 0 true 42 4 0;
  row "E,(IX@)" [203; 221] 2 0 0 true 43 4 0;
  row "E,(IY@)" [203; 253] 2 0 0 true 43 4 0;
  row "H,(IX@)" [203; 221] 2 0 0 true 44 4 0;
  row "H,(IY@)" [203; 253] 2 0 0 true 44 4 0;
  row "L,(IX@)" [203; 221] 2 0 0 true 45 4 0;
  row "L,(IY@)" [203; 253] 2 0 0 true 45 4 0;
  row "(IX@)" [203; 221] 2 23 23 true 46 4 0;
  row "(IY@)" [203; 253] 2 23 23 true 46 4 0;
  row "A,(IX@)" [203; 221] 2 0 0 true 47 4 0;
  row "A,(IY@)" [203; 253] 2 0 0 true 47 4 0;
  row "B" [40; 203] 2 8 8 false 0 2 0;
  row "C" [41; 203] 2 8 8 false 0 2 0;
  row "D" [42; 203] 2 8 8 false 0 2 0;
  row "E" [43; 203] 2 8 8 false 0 2 0;
  row "H" [44; 203] 2 8 8 false 0 2 0;
  row "L" [45; 203] 2 8 8 false 0 2 0;
  row "(HL)" [46; 203] 2 15 15 false 0 2 0;
  row "A" [47; 203] 2 8 8 false 0 2 0 ].

(** opcodes.cpp:556-580. *)
Definition res_instrs : list instr := [
  row "B,^,(IX@)" [203; 221] 2 23 23 true 128 4 0;
  row "B,^,(IY@)" [203; 253] 2 23 23 true 128 4 0;
  row "C,^,(IX@)" [203; 221] 2 23 23 true 129 4 0;
  row "C,^,(IY@)" [203; 253] 2 23 23 true 129 4 0;
  row "D,^,(IX@)" [203; 221] 2 23 23 true 130 4 0;
  row "D,^,(IY@)" [203; 253] 2 23 23 true 130 4 0;
  row "E,^,(IX@)" [203; 221] 2 23 23 true 131 4 0;
  row "E,^,(IY@)" [203; 253] 2 23 23 true 131 4 0;
  row "H,^,(IX@)" [203; 221] 2 23 23 true 132 4 0;
  row "H,^,(IY@)" [203; 253] 2 23 23 true 132 4 0;
  row "L,^,(IX@)" [203; 221] 2 23 23 true 133 4 0;
  row "L,^,(IY@)" [203; 253] 2 23 23 true 133 4 0;
  row "^,(IX@)" [203; 221] 2 23 23 true 134 4 0;
  row "^,(IY@)" [203; 253] 2 23 23 true 134 4 0;
  row "A,^,(IX@)" [203; 221] 2 23 23 true 135 4 0;
  row "A,^,(IY@)" [203; 253] 2 23 23 true 135 4 0;
  row "^,B" [203] 1 8 8 true 128 2 0;
  row "^,C" [203] 1 8 8 true 129 2 0;
  row "^,D" [203] 1 8 8 true 130 2 0;
  row "^,E" [203] 1 8 8 true 131 2 0;
  row "^,H" [203] 1 8 8 true 132 2 0;
  row "^,L" [203] 1 8 8 true 133 2 0;
  row "^,(HL)" [203] 1 15 15 true 134 2 0;
  row "^,A" [203] 1 8 8 true 135 2 0 ].

(** opcodes.cpp:944-945. *)
Definition ldir_instrs : list instr := [
  row "" [176; 237] 2 16 21 false 0 2 0 ].

(** opcodes.cpp:593-594. *)
Definition rla_instrs : list instr := [
  row "" [23] 1 4 4 false 0 1 0 ].

(** opcodes.cpp:537-546. *)
Definition out_instrs : list instr := [
  row "(C),A" [121; 237] 2 12 12 false 0 2 0;
  row "(&),A" [211] 1 11 11 false 0 2 0;
  row "(C),B" [65; 237] 2 12 12 false 0 2 0;
  row "(C),C" [73; 237] 2 12 12 false 0 2 0;
  row "(C),D" [81; 237] 2 12 12 false 0 2 0;
  row "(C),E" [89; 237] 2 12 12 false 0 2 0;
  row "(C),H" [97; 237] 2 12 12 false 0 2 0;
  row "(C),L" [105; 237] 2 12 12 false 0 2 0;
  row "(C),0" [113; 237] 2 12 12 false 0 2 0 ].

(** opcodes.cpp:668-687. *)
Definition sbc_instrs : list instr := [
  row "A,IXH" [156; 221] 2 8 8 false 0 2 0;
  row "A,IYH" [156; 253] 2 8 8 false 0 2 0;
  row "A,IXL" [157; 221] 2 8 8 false 0 2 0;
  row "A,IYL" [157; 253] 2 8 8 false 0 2 0;
  row "A,(IX@)" [158; 221] 2 19 19 false 0 3 0;
  row "A,(IY@)" [158; 253] 2 19 19 false 0 3 0;
  row "A,B" [152] 1 4 4 false 0 1 0;
  row "A,C" [153] 1 4 4 false 0 1 0;
  row "A,D" [154] 1 4 4 false 0 1 0;
  row "A,E" [155] 1 4 4 false 0 1 0;
  row "A,H" [156] 1 4 4 false 0 1 0;
  row "A,L" [157] 1 4 4 false 0 1 0;
  row "A,(HL)" [158] 1 7 7 false 0 1 0;
  row "A,A" [159] 1 4 4 false 0 1 0;
  row "A,&" [222] 1 7 7 false 0 2 0;
  row "HL,BC" [66; 237] 2 15 15 false 0 2 0;
  row "HL,DE" [82; 237] 2 15 15 false 0 2 0;
  row "HL,HL" [98; 237] 2 15 15 false 0 2 0;
  row "HL,SP" [114; 237] 2 15 15 false 0 2 0 ].

(** opcodes.cpp:466-467. *)
Definition cpl_instrs : list instr := [
  row "" [47] 1 4 4 false 0 1 0 ].

(** opcodes.cpp:311-335. *)
Definition rl_instrs : list instr := [
  row "B,(IX@)" [203; 221] 2 23 23 true 16 4 0;
  row "B,(IY@)" [203; 253] 2 23 23 true 16 4 0;
  row "C,(IX@)" [203; 221] 2 23 23 true 17 4 0;
  row "C,(IY@)" [203; 253] 2 23 23 true 17 4 0;
  row "D,(IX@)" [203; 221] 2 23 23 true 18 4 0;
  row "D,(IY@)" [203; 253] 2 23 23 true 18 4 0;
  row "E,(IX@)" [203; 221] 2 23 23 true 19 4 0;
  row "E,(IY@)" [203; 253] 2 23 23 true 19 4 0;
  row "H,(IX@)" [203; 221] 2 23 23 true 20 4 0;
  row "H,(IY@)" [203; 253] 2 23 23 true 20 4 0;
  row "L,(IX@)" [203; 221] 2 23 23 true 21 4 0;
  row "L,(IY@)" [203; 253] 2 23 23 true 21 4 0;
  row "(IX@)" [203; 221] 2 23 23 true 22 4 0;
  row "(IY@)" [203; 253] 2 23 23 true 22 4 0;
  row "A,(IX@)" [203; 221] 2 23 23 true 23 4 0;
  row "A,(IY@)" [203; 253] 2 23 23 true 23 4 0;
  row "B" [16; 203] 2 8 8 false 0 2 0;
  row "C" [17; 203] 2 8 8 false 0 2 0;
  row "D" [18; 203] 2 8 8 false 0 2 0;
  row "E" [19; 203] 2 8 8 false 0 2 0;
  row "H" [20; 203] 2 8 8 false 0 2 0;
  row "L" [21; 203] 2 8 8 false 0 2 0;
  row "(HL)" [22; 203] 2 15 15 false 0 2 0;
  row "A" [23; 203] 2 8 8 false 0 2 0 ].

(** opcodes.cpp:531-532. *)
Definition neg_instrs : list instr := [
  row "" [68; 237] 2 8 8 false 0 2 0 ].

(** opcodes.cpp:596-620. *)
Definition rlc_instrs : list instr := [
  row "B,(IX@)" [203; 221] 2 23 23 true 0 4 0;
  row "B,(IY@)" [203; 253] 2 23 23 true 0 4 0;
  row "C,(IX@)" [203; 221] 2 23 23 true 1 4 0;
  row "C,(IY@)" [203; 253] 2 23 23 true 1 4 0;
  row "D,(IX@)" [203; 221] 2 23 23 true 2 4 0;
  row "D,(IY@)" [203; 253] 2 23 23 true 2 4 0;
  row "E,(IX@)" [203; 221] 2 23 23 true 3 4 0;
  row "E,(IY@)" [203; 253] 2 23 23 true 3 4 0;
  row "H,(IX@)" [203; 221] 2 23 23 true 4 4 0;
  row "H,(IY@)" [203; 253] 2 23 23 true 4 4 0;
  row "L,(IX@)" [203; 221] 2 23 23 true 5 4 0;
  row "L,(IY@)" [203; 253] 2 23 23 true 5 4 0;
  row "(IX@)" [203; 221] 2 23 23 true 6 4 0;
  row "(IY@)" [203; 253] 2 23 23 true 6 4 0;
  row "A,(IX@)" [203; 221] 2 23 23 true 7 4 0;
  row "A,(IY@)" [203; 253] 2 23 23 true 7 4 0;
  row "B" [0; 203] 2 8 8 false 0 2 0;
  row "C" [1; 203] 2 8 8 false 0 2 0;
  row "D" [2; 203] 2 8 8 false 0 2 0;
  row "E" [3; 203] 2 8 8 false 0 2 0;
  row "H" [4; 203] 2 8 8 false 0 2 0;
  row "L" [5; 203] 2 8 8 false 0 2 0;
  row "(HL)" [6; 203] 2 15 15 false 0 2 0;
  row "A" [7; 203] 2 8 8 false 0 2 0 ].

(** opcodes.cpp:822-846. *)
Definition srl_instrs : list instr := [
  row "B,(IX@)" [203; 221] 2 0 0 true 56 4 0;
  row "B,(IY@)" [203; 253] 2 0 0 true 56 4 0;
  row "C,(IX@)" [203; 221] 2 0 0 true 57 4 0;
  row "C,(IY@)" [203; 253] 2 0 0 true 57 4 0;
  row "D,(IX@)" [203; 221] 2 0 0 true 58 4 0;
  row "D,(IY@)" [203; 253] 2 0 0 true 58 4 0;
  row "E,(IX@)" [203; 221] 2 0 0 true 59 4 0;
  row "E,(IY@)" [203; 253] 2 0 0 true 59 4 0;
  row "H,(IX@)" [203; 221] 2 0 0 true 60 4 0;
  row "H,(IY@)" [203; 253] 2 0 0 true 60 4 0;
  row "L,(IX@)" [203; 221] 2 0 0 true 61 4 0;
  row "L,(IY@)" [203; 253] 2 0 0 true 61 4 0;
  row "(IX@)" [203; 221] 2 23 23 true 62 4 0;
  row "(IY@)" [203; 253] 2 23 23 true 62 4 0;
  row "A,(IX@)" [203; 221] 2 0 0 true 63 4 0;
  row "A,(IY@)" [203; 253] 2 0 0 true 63 4 0;
  row "B" [56; 203] 2 8 8 false 0 2 0;
  row "C" [57; 203] 2 8 8 false 0 2 0;
  row "D" [58; 203] 2 8 8 false 0 2 0;
  row "E" [59; 203] 2 8 8 false 0 2 0;
  row "H" [60; 203] 2 8 8 false 0 2 0;
  row "L" [61; 203] 2 8 8 false 0 2 0;
  row "(HL)" [62; 203] 2 15 15 false 0 2 0;
  row "A" [63; 203] 2 8 8 false 0 2 0 ].

(** opcodes.cpp:657-666. *)
Definition rst_instrs : list instr := [
  row "00H" [199] 1 11 11 false 0 1 0;
  row "08H" [207] 1 11 11 false 0 1 0;
  row "10H" [215] 1 11 11 false 0 1 0;
  row "18H" [223] 1 11 11 false 0 1 0;
  row "20H" [231] 1 11 11 false 0 1 0;
  row "28H" [239] 1 11 11 false 0 1 0;
  row "30H" [247] 1 11 11 false 0 1 0;
  row "38H" [255] 1 11 11 false 0 1 0;
  row "#" [255] 0 11 11 false 0 1 0 ].

(** opcodes.cpp:57-66. *)
Definition in_instrs : list instr := [
  row "A,(C)" [120; 237] 2 12 12 false 0 2 0;
  row "A,(&)" [219] 1 11 11 false 0 2 0;
  row "B,(C)" [64; 237] 2 12 12 false 0 2 0;
  row "C,(C)" [72; 237] 2 12 12 false 0 2 0;
  row "D,(C)" [80; 237] 2 12 12 false 0 2 0;
  row "E,(C)" [88; 237] 2 12 12 false 0 2 0;
  row "H,(C)" [96; 237] 2 12 12 false 0 2 0;
  row "L,(C)" [104; 237] 2 12 12 false 0 2 0;
  row "F,(C)" [112; 237] 2 12 12 false 0 2 0 ].

(** opcodes.cpp:941-942. *)
Definition lddr_instrs : list instr := [
  row "" [184; 237] 2 16 21 false 0 2 0 ].

(** opcodes.cpp:42-43. *)
Definition ei_instrs : list instr := [
  row "" [251] 1 4 4 false 0 1 0 ].

(** opcodes.cpp:52-55. *)
Definition im_instrs : list instr := [
  row "0" [70; 237] 2 8 8 false 0 2 0;
  row "1" [86; 237] 2 8 8 false 0 2 0;
  row "2" [94; 237] 2 8 8 false 0 2 0 ].

(** opcodes.cpp:363-382. *)
Definition adc_instrs : list instr := [
  row "A,IXH" [140; 221] 2 8 8 false 0 2 0;
  row "A,IYH" [140; 253] 2 8 8 false 0 2 0;
  row "A,IXL" [141; 221] 2 8 8 false 0 2 0;
  row "A,IYL" [141; 253] 2 8 8 false 0 2 0;
  row "A,(IX@)" [142; 221] 2 19 19 false 0 3 0;
  row "A,(IY@)" [142; 253] 2 19 19 false 0 3 0;
  row "A,B" [136] 1 4 4 false 0 1 0;
  row "A,C" [137] 1 4 4 false 0 1 0;
  row "A,D" [138] 1 4 4 false 0 1 0;
  row "A,E" [139] 1 4 4 false 0 1 0;
  row "A,H" [140] 1 4 4 false 0 1 0;
  row "A,L" [141] 1 7 7 false 0 1 0;
  row "A,(HL)" [142] 1 7 7 false 0 1 0;
  row "A,A" [143] 1 4 4 false 0 1 0;
  row "A,&" [206] 1 7 7 false 0 2 0;
  row "HL,BC" [74; 237] 2 15 15 false 0 2 0;
  row "HL,DE" [90; 237] 2 15 15 false 0 2 0;
  row "HL,HL" [106; 237] 2 15 15 false 0 2 0;
  row "HL,SP" [122; 237] 2 15 15 false 0 2 0 ].

(** opcodes.cpp:469-470. *)
Definition daa_instrs : list instr := [
  row "" [39] 1 4 4 false 0 1 0 ].

(** opcodes.cpp:39-40. *)
Definition di_instrs : list instr := [
  row "" [243] 1 4 4 false 0 1 0 ].

(** opcodes.cpp:534-535. *)
Definition nop_instrs : list instr := [
  row "" [0] 1 4 4 false 0 1 0 ].

(** opcodes.cpp:973-974. *)
Definition rlca_instrs : list instr := [
  row "" [7] 1 4 4 false 0 1 0 ].

(** opcodes.cpp:744-768. *)
Definition sla_instrs : list instr := [
  row "B,(IX@)" [203; 221] 2 0 0 true 32 4 0;
  row "B,(IY@)" [203; 253] 2 0 0 true 32 4 0;
  row "C,(IX@)" [203; 221] 2 0 0 true 33 4 0;
  row "C,(IY@)" [203; 253] 2 0 0 true 33 4 0;
  row "D,(IX@)" [203; 221] 2 0 0 true 34 4 0;
  row "D,(IY@)" [203; 253] 2 0 0 true 34 4 0;
  row "E,(IX@)" [203; 221] 2 0 0 true 35 4 0;
  row "E,(IY@)" [203; 253] 2 0 0 true 35 4 0;
  row "H,(IX@)" [203; 221] 2 0 0 true 36 4 0;
  row "H,(IY@)" [203; 253] 2 0 0 true 36 4 0;
  row "L,(IX@)" [203; 221] 2 0 0 true 37 4 0;
  row "L,(IY@)" [203; 253] 2 0 0 true 37 4 0;
  row "(IX@)" [203; 221] 2 23 23 true 38 4 0;
  row "(IY@)" [203; 253] 2 23 23 true 38 4 0;
  row "A,(IX@)" [203; 221] 2 0 0 true 39 4 0;
  row "A,(IY@)" [203; 253] 2 0 0 true 39 4 0;
  row "B" [32; 203] 2 8 8 false 0 2 0;
  row "C" [33; 203] 2 8 8 false 0 2 0;
  row "D" [34; 203] 2 8 8 false 0 2 0;
  row "E" [35; 203] 2 8 8 false 0 2 0;
  row "H" [36; 203] 2 8 8 false 0 2 0;
  row "L" [37; 203] 2 8 8 false 0 2 0;
  row "(HL)" [38; 203] 2 15 15 false 0 2 0;
  row "A" [39; 203] 2 8 8 false 0 2 0 ].

(** opcodes.cpp:528-529. *)
Definition ldi_instrs : list instr := [
  row "" [160; 237] 2 16 16 false 0 2 0 ].

(** opcodes.cpp:457-458. *)
Definition ccf_instrs : list instr := [
  row "" [63] 1 4 4 false 0 1 0 ].

(** opcodes.cpp:689-690. *)
Definition scf_instrs : list instr := [
  row "" [55] 1 4 4 false 0 1 0 ].

(** opcodes.cpp:628-652. *)
Definition rrc_instrs : list instr := [
  row "B,(IX@)" [203; 221] 2 23 23 true 8 4 0;
  row "B,(IY@)" [203; 253] 2 23 23 true 8 4 0;
  row "C,(IX@)" [203; 221] 2 23 23 true 9 4 0;
  row "C,(IY@)" [203; 253] 2 23 23 true 9 4 0;
  row "D,(IX@)" [203; 221] 2 23 23 true 10 4 0;
  row "D,(IY@)" [203; 253] 2 23 23 true 10 4 0;
  row "E,(IX@)" [203; 221] 2 23 23 true 11 4 0;
  row "E,(IY@)" [203; 253] 2 23 23 true 11 4 0;
  row "H,(IX@)" [203; 221] 2 23 23 true 12 4 0;
  row "H,(IY@)" [203; 253] 2 23 23 true 12 4 0;
  row "L,(IX@)" [203; 221] 2 23 23 true 13 4 0;
  row "L,(IY@)" [203; 253] 2 23 23 true 13 4 0;
  row "(IX@)" [203; 221] 2 23 23 true 14 4 0;
  row "(IY@)" [203; 253] 2 23 23 true 14 4 0;
  row "A,(IX@)" [203; 221] 2 23 23 true 15 4 0;
  row "A,(IY@)" [203; 253] 2 23 23 true 15 4 0;
  row "B" [8; 203] 2 8 8 false 0 2 0;
  row "C" [9; 203] 2 8 8 false 0 2 0;
  row "D" [10; 203] 2 8 8 false 0 2 0;
  row "E" [11; 203] 2 8 8 false 0 2 0;
  row "H" [12; 203] 2 8 8 false 0 2 0;
  row "L" [13; 203] 2 8 8 false 0 2 0;
  row "(HL)" [14; 203] 2 15 15 false 0 2 0;
  row "A" [15; 203] 2 8 8 false 0 2 0 ].

(** opcodes.cpp:932-933. *)
Definition halt_instrs : list instr := [
  row "" [118] 1 4 4 false 0 1 0 ].

(** opcodes.cpp:622-623. *)
Definition rld_instrs : list instr := [
  row "" [111; 237] 2 18 18 false 0 2 0 ].

(** opcodes.cpp:718-742. *)
Definition sl1_instrs : list instr := [
  row "B,(IX@)" [203; 221] 2 0 0 true 48 4 0;
  row "B,(IY@)" [203; 253] 2 0 0 true 48 4 0;
  row "C,(IX@)" [203; 221] 2 0 0 true 49 4 0;
  row "C,(IY@)" [203; 253] 2 0 0 true 49 4 0;
  row "D,(IX@)" [203; 221] 2 0 0 true 50 4 0;
  row "D,(IY@)" [203; 253] 2 0 0 true 50 4 0;
  row "E,(IX@)" [203; 221] 2 0 0 true 51 4 0;
  row "E,(IY@)" [203; 253] 2 0 0 true 51 4 0;
  row "H,(IX@)" [203; 221] 2 0 0 true 52 4 0;
  row "H,(IY@)" [203; 253] 2 0 0 true 52 4 0;
  row "L,(IX@)" [203; 221] 2 0 0 true 53 4 0;
  row "L,(IY@)" [203; 253] 2 0 0 true 53 4 0;
  row "(IX@)" [203; 221] 2 0 0 true 54 4 0;
  row "(IY@)" [203; 253] 2 0 0 true 54 4 0;
  row "A,(IX@)" [203; 221] 2 0 0 true 55 4 0;
  row "A,(IY@)" [203; 253] 2 0 0 true 55 4 0;
  row "B" [48; 203] 2 0 0 false 0 2 0;
  row "C" [49; 203] 2 0 0 false 0 2 0;
  row "D" [50; 203] 2 0 0 false 0 2 0;
  row "E" [51; 203] 2 0 0 false 0 2 0;
  row "H" [52; 203] 2 0 0 false 0 2 0;
  row "L" [53; 203] 2 0 0 false 0 2 0;
  row "(HL)" [54; 203] 2 0 0 false 0 2 0;
  row "A" [55; 203] 2 0 0 false 0 2 0 ].

(** opcodes.cpp:460-461. *)
Definition cpd_instrs : list instr := [
  row "" [169; 237] 2 16 16 false 0 2 0 ].

(** opcodes.cpp:923-924. *)
Definition cpdr_instrs : list instr := [
  row "" [185; 237] 2 16 21 false 0 2 0 ].

(** opcodes.cpp:463-464. *)
Definition cpi_instrs : list instr := [
  row "" [161; 237] 2 16 16 false 0 2 0 ].

(** opcodes.cpp:926-927. *)
Definition cpir_instrs : list instr := [
  row "" [177; 237] 2 16 21 false 0 2 0 ].

(** opcodes.cpp:519-520. *)
Definition ind_instrs : list instr := [
  row "" [170; 237] 2 16 16 false 0 2 0 ].

(** opcodes.cpp:935-936. *)
Definition indr_instrs : list instr := [
  row "" [186; 237] 2 16 21 false 0 2 0 ].

(** opcodes.cpp:522-523. *)
Definition ini_instrs : list instr := [
  row "" [162; 237] 2 16 16 false 0 2 0 ].

(** opcodes.cpp:938-939. *)
Definition inir_instrs : list instr := [
  row "" [178; 237] 2 16 21 false 0 2 0 ].

(** opcodes.cpp:525-526. *)
Definition ldd_instrs : list instr := [
  row "" [168; 237] 2 16 16 false 0 2 0 ].

(** opcodes.cpp:947-948. *)
Definition otdr_instrs : list instr := [
  row "" [187; 237] 2 16 21 false 0 2 0 ].

(** opcodes.cpp:950-951. *)
Definition otir_instrs : list instr := [
  row "" [179; 237] 2 16 21 false 0 2 0 ].

(** opcodes.cpp:953-954. *)
Definition outd_instrs : list instr := [
  row "" [171; 237] 2 16 16 false 0 2 0 ].

(** opcodes.cpp:956-957. *)
Definition outi_instrs : list instr := [
  row "" [163; 237] 2 16 16 false 0 2 0 ].

(** opcodes.cpp:967-968. *)
Definition reti_instrs : list instr := [
  row "" [77; 237] 2 14 14 false 0 2 0 ].

(** opcodes.cpp:970-971. *)
Definition retn_instrs : list instr := [
  row "" [69; 237] 2 14 14 false 0 2 0 ].

(** opcodes.cpp:976-977. *)
Definition rrca_instrs : list instr := [
  row "" [15] 1 4 4 false 0 1 0 ].

(** opcodes.cpp:654-655. *)
Definition rrd_instrs : list instr := [
  row "" [103; 237] 2 18 18 false 0 2 0 ].

(** opcodes.cpp:770-794. *)
Definition sll_instrs : list instr := [
  row "B,(IX@)" [203; 221] 2 0 0 true 48 4 0;
  row "B,(IY@)" [203; 253] 2 0 0 true 48 4 0;
  row "C,(IX@)" [203; 221] 2 0 0 true 49 4 0;
  row "C,(IY@)" [203; 253] 2 0 0 true 49 4 0;
  row "D,(IX@)" [203; 221] 2 0 0 true 50 4 0;
  row "D,(IY@)" [203; 253] 2 0 0 true 50 4 0;
  row "E,(IX@)" [203; 221] 2 0 0 true 51 4 0;
  row "E,(IY@)" [203; 253] 2 0 0 true 51 4 0;
  row "H,(IX@)" [203; 221] 2 0 0 true 52 4 0;
  row "H,(IY@)" [203; 253] 2 0 0 true 52 4 0;
  row "L,(IX@)" [203; 221] 2 0 0 true 53 4 0;
  row "L,(IY@)" [203; 253] 2 0 0 true 53 4 0;
  row "(IX@)" [203; 221] 2 0 0 true 54 4 0;
  row "(IY@)" [203; 253] 2 0 0 true 54 4 0;
  row "A,(IX@)" [203; 221] 2 0 0 true 55 4 0;
  row "A,(IY@)" [203; 253] 2 0 0 true 55 4 0;
  row "B" [48; 203] 2 0 0 false 0 2 0;
  row "C" [49; 203] 2 0 0 false 0 2 0;
  row "D" [50; 203] 2 0 0 false 0 2 0;
  row "E" [51; 203] 2 0 0 false 0 2 0;
  row "H" [52; 203] 2 0 0 false 0 2 0;
  row "L" [53; 203] 2 0 0 false 0 2 0;
  row "(HL)" [54; 203] 2 0 0 false 0 2 0;
  row "A" [55; 203] 2 0 0 false 0 2 0 ].

(** opcodes.cpp: the list in the order of its [next] links. *)
Definition opcode_list : list opcode := [
  mkopcode (zs "LD") ld_instrs;
  mkopcode (zs "CALL") call_instrs;
  mkopcode (zs "RET") ret_instrs;
  mkopcode (zs "JR") jr_instrs;
  mkopcode (zs "JP") jp_instrs;
  mkopcode (zs "ADD") add_instrs;
  mkopcode (zs "INC") inc_instrs;
  mkopcode (zs "POP") pop_instrs;
  mkopcode (zs "PUSH") push_instrs;
  mkopcode (zs "DEC") dec_instrs;
  mkopcode (zs "CP") cp_instrs;
  mkopcode (zs "OR") or_instrs;
  mkopcode (zs "EX") ex_instrs;
  mkopcode (zs "XOR") xor_instrs;
  mkopcode (zs "EXX") exx_instrs;
  mkopcode (zs "SUB") sub_instrs;
  mkopcode (zs "AND") and_instrs;
  mkopcode (zs "SET") set_instrs;
  mkopcode (zs "BIT") bit_instrs;
  mkopcode (zs "DJNZ") djnz_instrs;
  mkopcode (zs "RRA") rra_instrs;
  mkopcode (zs "RR") rr_instrs;
  mkopcode (zs "SRA") sra_instrs;
  mkopcode (zs "RES") res_instrs;
  mkopcode (zs "LDIR") ldir_instrs;
  mkopcode (zs "RLA") rla_instrs;
  mkopcode (zs "OUT") out_instrs;
  mkopcode (zs "SBC") sbc_instrs;
  mkopcode (zs "CPL") cpl_instrs;
  mkopcode (zs "RL") rl_instrs;
  mkopcode (zs "NEG") neg_instrs;
  mkopcode (zs "RLC") rlc_instrs;
  mkopcode (zs "SRL") srl_instrs;
  mkopcode (zs "RST") rst_instrs;
  mkopcode (zs "IN") in_instrs;
  mkopcode (zs "LDDR") lddr_instrs;
  mkopcode (zs "EI") ei_instrs;
  mkopcode (zs "IM") im_instrs;
  mkopcode (zs "ADC") adc_instrs;
  mkopcode (zs "DAA") daa_instrs;
  mkopcode (zs "DI") di_instrs;
  mkopcode (zs "NOP") nop_instrs;
  mkopcode (zs "RLCA") rlca_instrs;
  mkopcode (zs "SLA") sla_instrs;
  mkopcode (zs "LDI") ldi_instrs;
  mkopcode (zs "CCF") ccf_instrs;
  mkopcode (zs "SCF") scf_instrs;
  mkopcode (zs "RRC") rrc_instrs;
  mkopcode (zs "HALT") halt_instrs;
  mkopcode (zs "RLD") rld_instrs;
  mkopcode (zs "SL1") sl1_instrs;
  mkopcode (zs "CPD") cpd_instrs;
  mkopcode (zs "CPDR") cpdr_instrs;
  mkopcode (zs "CPI") cpi_instrs;
  mkopcode (zs "CPIR") cpir_instrs;
  mkopcode (zs "IND") ind_instrs;
  mkopcode (zs "INDR") indr_instrs;
  mkopcode (zs "INI") ini_instrs;
  mkopcode (zs "INIR") inir_instrs;
  mkopcode (zs "LDD") ldd_instrs;
  mkopcode (zs "OTDR") otdr_instrs;
  mkopcode (zs "OTIR") otir_instrs;
  mkopcode (zs "OUTD") outd_instrs;
  mkopcode (zs "OUTI") outi_instrs;
  mkopcode (zs "RETI") reti_instrs;
  mkopcode (zs "RETN") retn_instrs;
  mkopcode (zs "RRCA") rrca_instrs;
  mkopcode (zs "RRD") rrd_instrs;
  mkopcode (zs "SLL") sll_instrs ].

(** opcodes_ez80.cpp:99-321. *)
Definition ld_instrs_ez80 : list instr := [
  row "SP,HL" [249] 1 1 1 false 0 1 0;
  row "BC,(HL)" [7; 237] 2 4 4 false 0 2 1;
  row "(HL),BC" [15; 237] 2 4 4 false 0 2 1;
  row "DE,(HL)" [23; 237] 2 4 4 false 0 2 1;
  row "(HL),DE" [31; 237] 2 4 4 false 0 2 1;
  row "HL,(HL)" [39; 237] 2 4 4 false 0 2 1;
  row "(HL),HL" [47; 237] 2 4 4 false 0 2 1;
  row "IY,(HL)" [49; 237] 2 4 4 false 0 2 1;
  row "IX,(HL)" [55; 237] 2 4 4 false 0 2 1;
  row "(HL),IY" [62; 237] 2 4 4 false 0 2 1;
  row "(HL),IX" [63; 237] 2 4 4 false 0 2 1;
  row "BC,(IX@)" [7; 221] 2 5 5 false 0 3 1;
  row "(IX@),BC" [15; 221] 2 5 5 false 0 3 1;
  row "DE,(IX@)" [23; 221] 2 5 5 false 0 3 1;
  row "(IX@),DE" [31; 221] 2 5 5 false 0 3 1;
  row "HL,(IX@)" [39; 221] 2 5 5 false 0 3 1;
  row "(IX@),HL" [47; 221] 2 5 5 false 0 3 1;
  row "IY,(IX@)" [49; 221] 2 5 5 false 0 3 1;
  row "IX,(IX@)" [55; 221] 2 5 5 false 0 3 1;
  row "(IX@),IY" [62; 221] 2 5 5 false 0 3 1;
  row "(IX@),IX" [63; 221] 2 5 5 false 0 3 1;
  row "BC,(IY@)" [7; 253] 2 5 5 false 0 3 1;
  row "(IY@),BC" [15; 253] 2 5 5 false 0 3 1;
  row "DE,(IY@)" [23; 253] 2 5 5 false 0 3 1;
  row "(IY@),DE" [31; 253] 2 5 5 false 0 3 1;
  row "HL,(IY@)" [39; 253] 2 5 5 false 0 3 1;
  row "(IY@),HL" [47; 253] 2 5 5 false 0 3 1;
  row "IX,(IY@)" [49; 253] 2 5 5 false 0 3 1;
  row "IY,(IY@)" [55; 253] 2 5 5 false 0 3 1;
  row "(IY@),IX" [62; 253] 2 5 5 false 0 3 1;
  row "(IY@),IY" [63; 253] 2 5 5 false 0 3 1;
  row "A,I" [87; 237] 2 2 2 false 0 2 0;
  row "A,R" [95; 237] 2 2 2 false 0 2 0;
  row "A,MB" [110; 237] 2 2 2 false 0 2 0;
  row "I,HL" [199; 237] 2 2 2 false 0 2 0;
  row "HL,I" [215; 237] 2 2 2 false 0 2 0;
  row "IXH,B" [96; 221] 2 2 2 false 0 2 0;
  row "IYH,B" [96; 253] 2 2 2 false 0 2 0;
  row "IXH,C" [97; 221] 2 2 2 false 0 2 0;
  row "IYH,C" [97; 253] 2 2 2 false 0 2 0;
  row "IXH,D" [98; 221] 2 2 2 false 0 2 0;
  row "IYH,D" [98; 253] 2 2 2 false 0 2 0;
  row "IXH,E" [99; 221] 2 2 2 false 0 2 0;
  row "IYH,E" [99; 253] 2 2 2 false 0 2 0;
  row "IXH,IXH" [100; 221] 2 2 2 false 0 2 0;
  row "IYH,IYH" [100; 253] 2 2 2 false 0 2 0;
  row "IXH,IXL" [101; 221] 2 2 2 false 0 2 0;
  row "IYH,IYL" [101; 253] 2 2 2 false 0 2 0;
  row "H,(IX@)" [102; 221] 2 4 4 false 0 3 0;
  row "H,(IY@)" [102; 253] 2 4 4 false 0 3 0;
  row "IXH,A" [103; 221] 2 2 2 false 0 2 0;
  row "IYH,A" [103; 253] 2 2 2 false 0 2 0;
  row "IXL,B" [104; 221] 2 2 2 false 0 2 0;
  row "IYL,B" [104; 253] 2 2 2 false 0 2 0;
  row "IXL,C" [105; 221] 2 2 2 false 0 2 0;
  row "IYL,C" [105; 253] 2 2 2 false 0 2 0;
  row "IXL,D" [106; 221] 2 2 2 false 0 2 0;
  row "IYL,D" [106; 253] 2 2 2 false 0 2 0;
  row "IXL,E" [107; 221] 2 2 2 false 0 2 0;
  row "IYL,E" [107; 253] 2 2 2 false 0 2 0;
  row "IXL,IXH" [108; 221] 2 2 2 false 0 2 0;
  row "IYL,IYH" [108; 253] 2 2 2 false 0 2 0;
  row "IXL,IXL" [109; 221] 2 2 2 false 0 2 0;
  row "IYL,IYL" [109; 253] 2 2 2 false 0 2 0;
  row "L,(IX@)" [110; 221] 2 4 4 false 0 3 0;
  row "L,(IY@)" [110; 253] 2 4 4 false 0 3 0;
  row "IXL,A" [111; 221] 2 2 2 false 0 2 0;
  row "IYL,A" [111; 253] 2 2 2 false 0 2 0;
  row "(*),IX" [34; 221] 2 6 6 false 0 4 2;
  row "(*),IY" [34; 253] 2 6 6 false 0 4 2;
  row "IXH,&" [38; 221] 2 3 3 false 0 3 0;
  row "IYH,&" [38; 253] 2 3 3 false 0 3 0;
  row "IX,(*)" [42; 221] 2 6 6 false 0 4 2;
  row "IY,(*)" [42; 253] 2 6 6 false 0 4 2;
  row "IXL,&" [46; 221] 2 3 3 false 0 3 0;
  row "IYL,&" [46; 253] 2 3 3 false 0 3 0;
  row "B,IXH" [68; 221] 2 2 2 false 0 2 0;
  row "B,IYH" [68; 253] 2 2 2 false 0 2 0;
  row "B,IXL" [69; 221] 2 2 2 false 0 2 0;
  row "B,IYL" [69; 253] 2 2 2 false 0 2 0;
  row "B,(IX@)" [70; 221] 2 4 4 false 0 3 0;
  row "B,(IY@)" [70; 253] 2 4 4 false 0 3 0;
  row "C,IXH" [76; 221] 2 2 2 false 0 2 0;
  row "C,IYH" [76; 253] 2 2 2 false 0 2 0;
  row "C,IXL" [77; 221] 2 2 2 false 0 2 0;
  row "C,IYL" [77; 253] 2 2 2 false 0 2 0;
  row "C,(IX@)" [78; 221] 2 4 4 false 0 3 0;
  row "C,(IY@)" [78; 253] 2 4 4 false 0 3 0;
  row "D,IXH" [84; 221] 2 2 2 false 0 2 0;
  row "D,IYH" [84; 253] 2 2 2 false 0 2 0;
  row "D,IXL" [85; 221] 2 2 2 false 0 2 0;
  row "D,IYL" [85; 253] 2 2 2 false 0 2 0;
  row "D,(IX@)" [86; 221] 2 4 4 false 0 3 0;
  row "D,(IY@)" [86; 253] 2 4 4 false 0 3 0;
  row "E,IXH" [92; 221] 2 2 2 false 0 2 0;
  row "E,IYH" [92; 253] 2 2 2 false 0 2 0;
  row "E,IXL" [93; 221] 2 2 2 false 0 2 0;
  row "E,IYL" [93; 253] 2 2 2 false 0 2 0;
  row "E,(IX@)" [94; 221] 2 4 4 false 0 3 0;
  row "E,(IY@)" [94; 253] 2 4 4 false 0 3 0;
  row "(IX@),B" [112; 221] 2 4 4 false 0 3 0;
  row "(IY@),B" [112; 253] 2 4 4 false 0 3 0;
  row "(IX@),C" [113; 221] 2 4 4 false 0 3 0;
  row "(IY@),C" [113; 253] 2 4 4 false 0 3 0;
  row "(IX@),D" [114; 221] 2 4 4 false 0 3 0;
  row "(IY@),D" [114; 253] 2 4 4 false 0 3 0;
  row "(IX@),E" [115; 221] 2 4 4 false 0 3 0;
  row "(IY@),E" [115; 253] 2 4 4 false 0 3 0;
  row "(IX@),H" [116; 221] 2 4 4 false 0 3 0;
  row "(IY@),H" [116; 253] 2 4 4 false 0 3 0;
  row "(IX@),L" [117; 221] 2 4 4 false 0 3 0;
  row "(IY@),L" [117; 253] 2 4 4 false 0 3 0;
  row "(IX@),A" [119; 221] 2 4 4 false 0 3 0;
  row "(IY@),A" [119; 253] 2 4 4 false 0 3 0;
  row "A,IXH" [124; 221] 2 2 2 false 0 2 0;
  row "A,IYH" [124; 253] 2 2 2 false 0 2 0;
  row "A,IXL" [125; 221] 2 2 2 false 0 2 0;
  row "A,IYL" [125; 253] 2 2 2 false 0 2 0;
  row "A,(IX@)" [126; 221] 2 4 4 false 0 3 0;
  row "A,(IY@)" [126; 253] 2 4 4 false 0 3 0;
  row "(IX@),&" [54; 221] 2 5 5 false 0 4 0;
  row "(IY@),&" [54; 253] 2 5 5 false 0 4 0;
  row "SP,IX" [249; 221] 2 2 2 false 0 2 0;
  row "SP,IY" [249; 253] 2 2 2 false 0 2 0;
  row "B,B" [64] 1 1 1 false 0 1 0;
  row "B,C" [65] 1 1 1 false 0 1 0;
  row "B,D" [66] 1 1 1 false 0 1 0;
  row "B,E" [67] 1 1 1 false 0 1 0;
  row "B,H" [68] 1 1 1 false 0 1 0;
  row "B,L" [69] 1 1 1 false 0 1 0;
  row "B,(HL)" [70] 1 2 2 false 0 1 0;
  row "B,A" [71] 1 1 1 false 0 1 0;
  row "C,B" [72] 1 1 1 false 0 1 0;
  row "C,C" [73] 1 1 1 false 0 1 0;
  row "C,D" [74] 1 1 1 false 0 1 0;
  row "C,E" [75] 1 1 1 false 0 1 0;
  row "C,H" [76] 1 1 1 false 0 1 0;
  row "C,L" [77] 1 1 1 false 0 1 0;
  row "C,(HL)" [78] 1 2 2 false 0 1 0;
  row "C,A" [79] 1 1 1 false 0 1 0;
  row "D,B" [80] 1 1 1 false 0 1 0;
  row "D,C" [81] 1 1 1 false 0 1 0;
  row "D,D" [82] 1 1 1 false 0 1 0;
  row "D,E" [83] 1 1 1 false 0 1 0;
  row "D,H" [84] 1 1 1 false 0 1 0;
  row "D,L" [85] 1 1 1 false 0 1 0;
  row "D,(HL)" [86] 1 2 2 false 0 1 0;
  row "D,A" [87] 1 1 1 false 0 1 0;
  row "E,B" [88] 1 1 1 false 0 1 0;
  row "E,C" [89] 1 1 1 false 0 1 0;
  row "E,D" [90] 1 1 1 false 0 1 0;
  row "E,E" [91] 1 1 1 false 0 1 0;
  row "E,H" [92] 1 1 1 false 0 1 0;
  row "E,L" [93] 1 1 1 false 0 1 0;
  row "E,(HL)" [94] 1 2 2 false 0 1 0;
  row "E,A" [95] 1 1 1 false 0 1 0;
  row "H,B" [96] 1 1 1 false 0 1 0;
  row "H,C" [97] 1 1 1 false 0 1 0;
  row "H,D" [98] 1 1 1 false 0 1 0;
  row "H,E" [99] 1 1 1 false 0 1 0;
  row "H,H" [100] 1 1 1 false 0 1 0;
  row "H,L" [101] 1 1 1 false 0 1 0;
  row "H,(HL)" [102] 1 2 2 false 0 1 0;
  row "H,A" [103] 1 1 1 false 0 1 0;
  row "L,B" [104] 1 1 1 false 0 1 0;
  row "L,C" [105] 1 1 1 false 0 1 0;
  row "L,D" [106] 1 1 1 false 0 1 0;
  row "L,E" [107] 1 1 1 false 0 1 0;
  row "L,H" [108] 1 1 1 false 0 1 0;
  row "L,L" [109] 1 1 1 false 0 1 0;
  row "L,(HL)" [110] 1 2 2 false 0 1 0;
  row "L,A" [111] 1 1 1 false 0 1 0;
  row "(HL),B" [112] 1 2 2 false 0 1 0;
  row "(HL),C" [113] 1 2 2 false 0 1 0;
  row "(HL),D" [114] 1 2 2 false 0 1 0;
  row "(HL),E" [115] 1 2 2 false 0 1 0;
  row "(HL),H" [116] 1 2 2 false 0 1 0;
  row "(HL),L" [117] 1 2 2 false 0 1 0;
  row "(HL),A" [119] 1 2 2 false 0 1 0;
  row "A,B" [120] 1 1 1 false 0 1 0;
  row "A,C" [121] 1 1 1 false 0 1 0;
  row "A,D" [122] 1 1 1 false 0 1 0;
  row "A,E" [123] 1 1 1 false 0 1 0;
  row "A,H" [124] 1 1 1 false 0 1 0;
  row "A,L" [125] 1 1 1 false 0 1 0;
  row "A,(HL)" [126] 1 2 2 false 0 1 0;
  row "A,A" [127] 1 1 1 false 0 1 0;
  row "(BC),A" [2] 1 2 2 false 0 1 0;
  row "B,&" [6] 1 2 2 false 0 2 0;
  row "A,(BC)" [10] 1 2 2 false 0 1 0;
  row "C,&" [14] 1 2 2 false 0 2 0;
  row "(DE),A" [18] 1 2 2 false 0 1 0;
  row "D,&" [22] 1 2 2 false 0 2 0;
  row "A,(DE)" [26] 1 2 2 false 0 1 0;
  row "E,&" [30] 1 2 2 false 0 2 0;
  row "(*),HL" [34] 1 5 5 false 0 3 2;
  row "H,&" [38] 1 2 2 false 0 2 0;
  row "HL,(*)" [42] 1 5 5 false 0 3 2;
  row "L,&" [46] 1 2 2 false 0 2 0;
  row "(*),A" [50] 1 4 4 false 0 3 1;
  row "(HL),&" [54] 1 3 3 false 0 2 0;
  row "A,(*)" [58] 1 4 4 false 0 3 1;
  row "A,&" [62] 1 2 2 false 0 2 0;
  row "(*),BC" [67; 237] 2 6 6 false 0 4 2;
  row "I,A" [71; 237] 2 2 2 false 0 2 0;
  row "BC,(*)" [75; 237] 2 6 6 false 0 4 2;
  row "R,A" [79; 237] 2 2 2 false 0 2 0;
  row "(*),DE" [83; 237] 2 6 6 false 0 4 2;
  row "DE,(*)" [91; 237] 2 6 6 false 0 4 2;
  row "(*),HL" [99; 237] 2 6 6 false 0 4 2;
  row "HL,(*)" [107; 237] 2 6 6 false 0 4 2;
  row "MB,A" [109; 237] 2 2 2 false 0 2 0;
  row "(*),SP" [115; 237] 2 6 6 false 0 4 2;
  row "SP,(*)" [123; 237] 2 6 6 false 0 4 2;
  row "HL,*" [33] 1 3 3 false 0 3 1;
  row "BC,*" [1] 1 3 3 false 0 3 1;
  row "DE,*" [17] 1 3 3 false 0 3 1;
  row "IX,*" [33; 221] 2 4 4 false 0 4 1;
  row "IY,*" [33; 253] 2 4 4 false 0 4 1;
  row "SP,*" [49] 1 3 3 false 0 3 1 ].

(** opcodes_ez80.cpp:831-840. *)
Definition call_instrs_ez80 : list instr := [
  row "NZ,*" [196] 1 3 6 false 0 3 1;
  row "Z,*" [204] 1 3 6 false 0 3 1;
  row "NC,*" [212] 1 3 6 false 0 3 1;
  row "C,*" [220] 1 3 6 false 0 3 1;
  row "PO,*" [228] 1 3 6 false 0 3 1;
  row "PE,*" [236] 1 3 6 false 0 3 1;
  row "P,*" [244] 1 3 6 false 0 3 1;
  row "M,*" [252] 1 3 6 false 0 3 1;
  row "*" [205] 1 5 5 false 0 3 2 ].

(** opcodes_ez80.cpp:623-632. *)
Definition ret_instrs_ez80 : list instr := [
  row "" [201] 1 5 5 false 0 1 1;
  row "NZ" [192] 1 2 6 false 0 1 1;
  row "Z" [200] 1 2 6 false 0 1 1;
  row "NC" [208] 1 2 6 false 0 1 1;
  row "C" [216] 1 2 6 false 0 1 1;
  row "PO" [224] 1 2 6 false 0 1 1;
  row "PE" [232] 1 2 6 false 0 1 1;
  row "P" [240] 1 2 6 false 0 1 1;
  row "M" [248] 1 2 6 false 0 1 1 ].

(** opcodes_ez80.cpp:92-97. *)
Definition jr_instrs_ez80 : list instr := [
  row "NZ,%" [32] 1 2 3 false 0 2 0;
  row "Z,%" [40] 1 2 3 false 0 2 0;
  row "NC,%" [48] 1 2 3 false 0 2 0;
  row "C,%" [56] 1 2 3 false 0 2 0;
  row "%" [24] 1 3 3 false 0 2 0 ].

(** opcodes_ez80.cpp:78-90. *)
Definition jp_instrs_ez80 : list instr := [
  row "(IX)" [233; 221] 2 4 4 false 0 2 0;
  row "(IY)" [233; 253] 2 4 4 false 0 2 0;
  row "NZ,*" [194] 1 3 4 false 0 3 1;
  row "Z,*" [202] 1 3 4 false 0 3 1;
  row "NC,*" [210] 1 3 4 false 0 3 1;
  row "C,*" [218] 1 3 4 false 0 3 1;
  row "PO,*" [226] 1 3 4 false 0 3 1;
  row "(HL)" [233] 1 3 3 false 0 1 0;
  row "PE,*" [234] 1 3 4 false 0 3 1;
  row "P,*" [242] 1 3 4 false 0 3 1;
  row "M,*" [250] 1 3 4 false 0 3 1;
  row "*" [195] 1 4 4 false 0 3 1 ].

(** opcodes_ez80.cpp:400-427. *)
Definition add_instrs_ez80 : list instr := [
  row "IX,BC" [9; 221] 2 2 2 false 0 2 0;
  row "IY,BC" [9; 253] 2 2 2 false 0 2 0;
  row "IX,DE" [25; 221] 2 2 2 false 0 2 0;
  row "IY,DE" [25; 253] 2 2 2 false 0 2 0;
  row "IX,IX" [41; 221] 2 2 2 false 0 2 0;
  row "IY,IY" [41; 253] 2 2 2 false 0 2 0;
  row "IX,SP" [57; 221] 2 2 2 false 0 2 0;
  row "IY,SP" [57; 253] 2 2 2 false 0 2 0;
  row "A,IXH" [132; 221] 2 2 2 false 0 2 0;
  row "A,IYH" [132; 253] 2 2 2 false 0 2 0;
  row "A,IXL" [133; 221] 2 2 2 false 0 2 0;
  row "A,IYL" [133; 253] 2 2 2 false 0 2 0;
  row "A,(IX@)" [134; 221] 2 4 4 false 0 3 0;
  row "A,(IY@)" [134; 253] 2 4 4 false 0 3 0;
  row "A,B" [128] 1 1 1 false 0 1 0;
  row "A,C" [129] 1 1 1 false 0 1 0;
  row "A,D" [130] 1 1 1 false 0 1 0;
  row "A,E" [131] 1 1 1 false 0 1 0;
  row "A,H" [132] 1 1 1 false 0 1 0;
  row "A,L" [133] 1 1 1 false 0 1 0;
  row "A,(HL)" [134] 1 2 2 false 0 1 0;
  row "A,A" [135] 1 1 1 false 0 1 0;
  row "HL,BC" [9] 1 1 1 false 0 1 0;
  row "HL,DE" [25] 1 1 1 false 0 1 0;
  row "HL,HL" [41] 1 1 1 false 0 1 0;
  row "HL,SP" [57] 1 1 1 false 0 1 0;
  row "A,&" [198] 1 2 2 false 0 2 0 ].

(** opcodes_ez80.cpp:513-533. *)
Definition inc_instrs_ez80 : list instr := [
  row "IX" [35; 221] 2 2 2 false 0 2 0;
  row "IY" [35; 253] 2 2 2 false 0 2 0;
  row "IXH" [36; 221] 2 2 2 false 0 2 0;
  row "IYH" [36; 253] 2 2 2 false 0 2 0;
  row "IXL" [44; 221] 2 2 2 false 0 2 0;
  row "IYL" [44; 253] 2 2 2 false 0 2 0;
  row "(IX@)" [52; 221] 2 6 6 false 0 3 0;
  row "(IY@)" [52; 253] 2 6 6 false 0 3 0;
  row "BC" [3] 1 1 1 false 0 1 0;
  row "B" [4] 1 1 1 false 0 1 0;
  row "C" [12] 1 1 1 false 0 1 0;
  row "DE" [19] 1 1 1 false 0 1 0;
  row "D" [20] 1 1 1 false 0 1 0;
  row "E" [28] 1 1 1 false 0 1 0;
  row "HL" [35] 1 1 1 false 0 1 0;
  row "H" [36] 1 1 1 false 0 1 0;
  row "L" [44] 1 1 1 false 0 1 0;
  row "SP" [51] 1 1 1 false 0 1 0;
  row "(HL)" [52] 1 4 4 false 0 1 0;
  row "A" [60] 1 1 1 false 0 1 0 ].

(** opcodes_ez80.cpp:603-609. *)
Definition pop_instrs_ez80 : list instr := [
  row "IX" [225; 221] 2 4 4 false 0 2 1;
  row "IY" [225; 253] 2 4 4 false 0 2 1;
  row "BC" [193] 1 3 3 false 0 1 1;
  row "DE" [209] 1 3 3 false 0 1 1;
  row "HL" [225] 1 3 3 false 0 1 1;
  row "AF" [241] 1 3 3 false 0 1 1 ].

(** opcodes_ez80.cpp:905-911. *)
Definition push_instrs_ez80 : list instr := [
  row "IX" [229; 221] 2 4 4 false 0 2 1;
  row "IY" [229; 253] 2 4 4 false 0 2 1;
  row "BC" [197] 1 3 3 false 0 1 1;
  row "DE" [213] 1 3 3 false 0 1 1;
  row "HL" [229] 1 3 3 false 0 1 1;
  row "AF" [245] 1 3 3 false 0 1 1 ].

(** opcodes_ez80.cpp:488-508. *)
Definition dec_instrs_ez80 : list instr := [
  row "IXH" [37; 221] 2 2 2 false 0 2 0;
  row "IYH" [37; 253] 2 2 2 false 0 2 0;
  row "IX" [43; 221] 2 2 2 false 0 2 0;
  row "IY" [43; 253] 2 2 2 false 0 2 0;
  row "IXL" [45; 221] 2 2 2 false 0 2 0;
  row "IYL" [45; 253] 2 2 2 false 0 2 0;
  row "(IX@)" [53; 221] 2 6 6 false 0 3 0;
  row "(IY@)" [53; 253] 2 6 6 false 0 3 0;
  row "B" [5] 1 1 1 false 0 1 0;
  row "BC" [11] 1 1 1 false 0 1 0;
  row "C" [13] 1 1 1 false 0 1 0;
  row "D" [21] 1 1 1 false 0 1 0;
  row "DE" [27] 1 1 1 false 0 1 0;
  row "E" [29] 1 1 1 false 0 1 0;
  row "H" [37] 1 1 1 false 0 1 0;
  row "HL" [43] 1 1 1 false 0 1 0;
  row "L" [45] 1 1 1 false 0 1 0;
  row "(HL)" [53] 1 4 4 false 0 1 0;
  row "SP" [59] 1 1 1 false 0 1 0;
  row "A" [61] 1 1 1 false 0 1 0 ].

(** opcodes_ez80.cpp:7-37. *)
Definition cp_instrs_ez80 : list instr := [
  row "A,IXH" [188; 221] 2 2 2 false 0 2 0;
  row "A,IYH" [188; 253] 2 2 2 false 0 2 0;
  row "A,IXL" [189; 221] 2 2 2 false 0 2 0;
  row "A,IYL" [189; 253] 2 2 2 false 0 2 0;
  row "A,(IX@)" [190; 221] 2 4 4 false 0 3 0;
  row "A,(IY@)" [190; 253] 2 4 4 false 0 3 0;
  row "A,B" [184] 1 1 1 false 0 1 0;
  row "A,C" [185] 1 1 1 false 0 1 0;
  row "A,D" [186] 1 1 1 false 0 1 0;
  row "A,E" [187] 1 1 1 false 0 1 0;
  row "A,H" [188] 1 1 1 false 0 1 0;
  row "A,L" [189] 1 1 1 false 0 1 0;
  row "A,(HL)" [190] 1 2 2 false 0 1 0;
  row "A,A" [191] 1 1 1 false 0 1 0;
  row "A,&" [254] 1 2 2 false 0 2 0;
  row "IXH" [188; 221] 2 2 2 false 0 2 0;
  row "IYH" [188; 253] 2 2 2 false 0 2 0;
  row "IXL" [189; 221] 2 2 2 false 0 2 0;
  row "IYL" [189; 253] 2 2 2 false 0 2 0;
  row "(IX@)" [190; 221] 2 4 4 false 0 3 0;
  row "(IY@)" [190; 253] 2 4 4 false 0 3 0;
  row "B" [184] 1 1 1 false 0 1 0;
  row "C" [185] 1 1 1 false 0 1 0;
  row "D" [186] 1 1 1 false 0 1 0;
  row "E" [187] 1 1 1 false 0 1 0;
  row "H" [188] 1 1 1 false 0 1 0;
  row "L" [189] 1 1 1 false 0 1 0;
  row "(HL)" [190] 1 2 2 false 0 1 0;
  row "A" [191] 1 1 1 false 0 1 0;
  row "&" [254] 1 2 2 false 0 2 0 ].

(** opcodes_ez80.cpp:323-353. *)
Definition or_instrs_ez80 : list instr := [
  row "A,IXH" [180; 221] 2 2 2 false 0 2 0;
  row "A,IYH" [180; 253] 2 2 2 false 0 2 0;
  row "A,IXL" [181; 221] 2 2 2 false 0 2 0;
  row "A,IYL" [181; 253] 2 2 2 false 0 2 0;
  row "A,(IX@)" [182; 221] 2 4 4 false 0 3 0;
  row "A,(IY@)" [182; 253] 2 4 4 false 0 3 0;
  row "A,B" [176] 1 1 1 false 0 1 0;
  row "A,C" [177] 1 1 1 false 0 1 0;
  row "A,D" [178] 1 1 1 false 0 1 0;
  row "A,E" [179] 1 1 1 false 0 1 0;
  row "A,H" [180] 1 1 1 false 0 1 0;
  row "A,L" [181] 1 1 1 false 0 1 0;
  row "A,(HL)" [182] 1 2 2 false 0 1 0;
  row "A,A" [183] 1 1 1 false 0 1 0;
  row "A,&" [246] 1 2 2 false 0 2 0;
  row "IXH" [180; 221] 2 2 2 false 0 2 0;
  row "IYH" [180; 253] 2 2 2 false 0 2 0;
  row "IXL" [181; 221] 2 2 2 false 0 2 0;
  row "IYL" [181; 253] 2 2 2 false 0 2 0;
  row "(IX@)" [182; 221] 2 4 4 false 0 3 0;
  row "(IY@)" [182; 253] 2 4 4 false 0 3 0;
  row "B" [176] 1 1 1 false 0 1 0;
  row "C" [177] 1 1 1 false 0 1 0;
  row "D" [178] 1 1 1 false 0 1 0;
  row "E" [179] 1 1 1 false 0 1 0;
  row "H" [180] 1 1 1 false 0 1 0;
  row "L" [181] 1 1 1 false 0 1 0;
  row "(HL)" [182] 1 2 2 false 0 1 0;
  row "A" [183] 1 1 1 false 0 1 0;
  row "&" [246] 1 2 2 false 0 2 0 ].

(** opcodes_ez80.cpp:45-50. *)
Definition ex_instrs_ez80 : list instr := [
  row "(SP),IX" [227; 221] 2 6 6 false 0 2 2;
  row "(SP),IY" [227; 253] 2 6 6 false 0 2 2;
  row "AF,AF'" [8] 1 1 1 false 0 1 0;
  row "(SP),HL" [227] 1 5 5 false 0 1 2;
  row "DE,HL" [235] 1 1 1 false 0 1 0 ].

(** opcodes_ez80.cpp:799-829. *)
Definition xor_instrs_ez80 : list instr := [
  row "A,IXH" [172; 221] 2 2 2 false 0 2 0;
  row "A,IYH" [172; 253] 2 2 2 false 0 2 0;
  row "A,IXL" [173; 221] 2 2 2 false 0 2 0;
  row "A,IYL" [173; 253] 2 2 2 false 0 2 0;
  row "A,(IX@)" [174; 221] 2 4 4 false 0 3 0;
  row "A,(IY@)" [174; 253] 2 4 4 false 0 3 0;
  row "A,A" [175] 1 1 1 false 0 1 0;
  row "A,B" [168] 1 1 1 false 0 1 0;
  row "A,C" [169] 1 1 1 false 0 1 0;
  row "A,D" [170] 1 1 1 false 0 1 0;
  row "A,E" [171] 1 1 1 false 0 1 0;
  row "A,H" [172] 1 1 1 false 0 1 0;
  row "A,L" [173] 1 1 1 false 0 1 0;
  row "A,(HL)" [174] 1 2 2 false 0 1 0;
  row "A,&" [238] 1 2 2 false 0 2 0;
  row "IXH" [172; 221] 2 2 2 false 0 2 0;
  row "IYH" [172; 253] 2 2 2 false 0 2 0;
  row "IXL" [173; 221] 2 2 2 false 0 2 0;
  row "IYL" [173; 253] 2 2 2 false 0 2 0;
  row "(IX@)" [174; 221] 2 4 4 false 0 3 0;
  row "(IY@)" [174; 253] 2 4 4 false 0 3 0;
  row "A" [175] 1 1 1 false 0 1 0;
  row "B" [168] 1 1 1 false 0 1 0;
  row "C" [169] 1 1 1 false 0 1 0;
  row "D" [170] 1 1 1 false 0 1 0;
  row "E" [171] 1 1 1 false 0 1 0;
  row "H" [172] 1 1 1 false 0 1 0;
  row "L" [173] 1 1 1 false 0 1 0;
  row "(HL)" [174] 1 2 2 false 0 1 0;
  row "&" [238] 1 2 2 false 0 2 0 ].

(** opcodes_ez80.cpp:510-511. *)
Definition exx_instrs_ez80 : list instr := [
  row "" [217] 1 1 1 false 0 1 0 ].

(** opcodes_ez80.cpp:756-786. *)
Definition sub_instrs_ez80 : list instr := [
  row "A,IXH" [148; 221] 2 2 2 false 0 2 0;
  row "A,IYH" [148; 253] 2 2 2 false 0 2 0;
  row "A,IXL" [149; 221] 2 2 2 false 0 2 0;
  row "A,IYL" [149; 253] 2 2 2 false 0 2 0;
  row "A,(IX@)" [150; 221] 2 4 4 false 0 3 0;
  row "A,(IY@)" [150; 253] 2 4 4 false 0 3 0;
  row "A,B" [144] 1 1 1 false 0 1 0;
  row "A,C" [145] 1 1 1 false 0 1 0;
  row "A,D" [146] 1 1 1 false 0 1 0;
  row "A,E" [147] 1 1 1 false 0 1 0;
  row "A,H" [148] 1 1 1 false 0 1 0;
  row "A,L" [149] 1 1 1 false 0 1 0;
  row "A,(HL)" [150] 1 2 2 false 0 1 0;
  row "A,A" [151] 1 1 1 false 0 1 0;
  row "A,&" [214] 1 2 2 false 0 2 0;
  row "IXH" [148; 221] 2 2 2 false 0 2 0;
  row "IYH" [148; 253] 2 2 2 false 0 2 0;
  row "IXL" [149; 221] 2 2 2 false 0 2 0;
  row "IYL" [149; 253] 2 2 2 false 0 2 0;
  row "(IX@)" [150; 221] 2 4 4 false 0 3 0;
  row "(IY@)" [150; 253] 2 4 4 false 0 3 0;
  row "B" [144] 1 1 1 false 0 1 0;
  row "C" [145] 1 1 1 false 0 1 0;
  row "D" [146] 1 1 1 false 0 1 0;
  row "E" [147] 1 1 1 false 0 1 0;
  row "H" [148] 1 1 1 false 0 1 0;
  row "L" [149] 1 1 1 false 0 1 0;
  row "(HL)" [150] 1 2 2 false 0 1 0;
  row "A" [151] 1 1 1 false 0 1 0;
  row "&" [214] 1 2 2 false 0 2 0 ].

(** opcodes_ez80.cpp:429-459. *)
Definition and_instrs_ez80 : list instr := [
  row "A,IXH" [164; 221] 2 2 2 false 0 2 0;
  row "A,IYH" [164; 253] 2 2 2 false 0 2 0;
  row "A,IXL" [165; 221] 2 2 2 false 0 2 0;
  row "A,IYL" [165; 253] 2 2 2 false 0 2 0;
  row "A,(IX@)" [166; 221] 2 4 4 false 0 3 0;
  row "A,(IY@)" [166; 253] 2 4 4 false 0 3 0;
  row "A,B" [160] 1 1 1 false 0 1 0;
  row "A,C" [161] 1 1 1 false 0 1 0;
  row "A,D" [162] 1 1 1 false 0 1 0;
  row "A,E" [163] 1 1 1 false 0 1 0;
  row "A,H" [164] 1 1 1 false 0 1 0;
  row "A,L" [165] 1 1 1 false 0 1 0;
  row "A,(HL)" [166] 1 2 2 false 0 1 0;
  row "A,A" [167] 1 1 1 false 0 1 0;
  row "A,&" [230] 1 2 2 false 0 2 0;
  row "IXH" [164; 221] 2 2 2 false 0 2 0;
  row "IYH" [164; 253] 2 2 2 false 0 2 0;
  row "IXL" [165; 221] 2 2 2 false 0 2 0;
  row "IYL" [165; 253] 2 2 2 false 0 2 0;
  row "(IX@)" [166; 221] 2 4 4 false 0 3 0;
  row "(IY@)" [166; 253] 2 4 4 false 0 3 0;
  row "B" [160] 1 1 1 false 0 1 0;
  row "C" [161] 1 1 1 false 0 1 0;
  row "D" [162] 1 1 1 false 0 1 0;
  row "E" [163] 1 1 1 false 0 1 0;
  row "H" [164] 1 1 1 false 0 1 0;
  row "L" [165] 1 1 1 false 0 1 0;
  row "(HL)" [166] 1 2 2 false 0 1 0;
  row "A" [167] 1 1 1 false 0 1 0;
  row "&" [230] 1 2 2 false 0 2 0 ].

(** opcodes_ez80.cpp:705-715. *)
Definition set_instrs_ez80 : list instr := [
  row "^,(IX@)" [203; 221] 2 7 7 true 198 4 0;
  row "^,(IY@)" [203; 253] 2 7 7 true 198 4 0;
  row "^,B" [203] 1 2 2 true 192 2 0;
  row "^,C" [203] 1 2 2 true 193 2 0;
  row "^,D" [203] 1 2 2 true 194 2 0;
  row "^,E" [203] 1 2 2 true 195 2 0;
  row "^,H" [203] 1 2 2 true 196 2 0;
  row "^,L" [203] 1 2 2 true 197 2 0;
  row "^,(HL)" [203] 1 5 5 true 198 2 0;
  row "^,A" [203] 1 2 2 true 199 2 0 ].

(** opcodes_ez80.cpp:461-471. *)
Definition bit_instrs_ez80 : list instr := [
  row "^,(IX@)" [203; 221] 2 5 5 true 70 4 0;
  row "^,(IY@)" [203; 253] 2 5 5 true 70 4 0;
  row "^,B" [203] 1 2 2 true 64 2 0;
  row "^,C" [203] 1 2 2 true 65 2 0;
  row "^,D" [203] 1 2 2 true 66 2 0;
  row "^,E" [203] 1 2 2 true 67 2 0;
  row "^,H" [203] 1 2 2 true 68 2 0;
  row "^,L" [203] 1 2 2 true 69 2 0;
  row "^,(HL)" [203] 1 3 3 true 70 2 0;
  row "^,A" [203] 1 2 2 true 71 2 0 ].

(** opcodes_ez80.cpp:848-849. *)
Definition djnz_instrs_ez80 : list instr := [
  row "%" [16] 1 2 4 false 0 2 0 ].

(** opcodes_ez80.cpp:652-653. *)
Definition rra_instrs_ez80 : list instr := [
  row "" [31] 1 1 1 false 0 1 0 ].

(** opcodes_ez80.cpp:367-377. *)
Definition rr_instrs_ez80 : list instr := [
  row "(IX@)" [203; 221] 2 7 7 true 30 4 0;
  row "(IY@)" [203; 253] 2 7 7 true 30 4 0;
  row "B" [24; 203] 2 2 2 false 0 2 0;
  row "C" [25; 203] 2 2 2 false 0 2 0;
  row "D" [26; 203] 2 2 2 false 0 2 0;
  row "E" [27; 203] 2 2 2 false 0 2 0;
  row "H" [28; 203] 2 2 2 false 0 2 0;
  row "L" [29; 203] 2 2 2 false 0 2 0;
  row "(HL)" [30; 203] 2 5 5 false 0 2 0;
  row "A" [31; 203] 2 2 2 false 0 2 0 ].

(** opcodes_ez80.cpp:732-742. *)
Definition sra_instrs_ez80 : list instr := [
  row "(IX@)" [203; 221] 2 7 7 true 46 4 0;
  row "(IY@)" [203; 253] 2 7 7 true 46 4 0;
  row "B" [40; 203] 2 2 2 false 0 2 0;
  row "C" [41; 203] 2 2 2 false 0 2 0;
  row "D" [42; 203] 2 2 2 false 0 2 0;
  row "E" [43; 203] 2 2 2 false 0 2 0;
  row "H" [44; 203] 2 2 2 false 0 2 0;
  row "L" [45; 203] 2 2 2 false 0 2 0;
  row "(HL)" [46; 203] 2 5 5 false 0 2 0;
  row "A" [47; 203] 2 2 2 false 0 2 0 ].

(** opcodes_ez80.cpp:611-621. *)
Definition res_instrs_ez80 : list instr := [
  row "^,(IX@)" [203; 221] 2 7 7 true 134 4 0;
  row "^,(IY@)" [203; 253] 2 7 7 true 134 4 0;
  row "^,B" [203] 1 2 2 true 128 2 0;
  row "^,C" [203] 1 2 2 true 129 2 0;
  row "^,D" [203] 1 2 2 true 130 2 0;
  row "^,E" [203] 1 2 2 true 131 2 0;
  row "^,H" [203] 1 2 2 true 132 2 0;
  row "^,L" [203] 1 2 2 true 133 2 0;
  row "^,(HL)" [203] 1 5 5 true 134 2 0;
  row "^,A" [203] 1 2 2 true 135 2 0 ].

(** opcodes_ez80.cpp:875-876. *)
Definition ldir_instrs_ez80 : list instr := [
  row "" [176; 237] 2 3 5 false 0 2 0 ].

(** opcodes_ez80.cpp:634-635. *)
Definition rla_instrs_ez80 : list instr := [
  row "" [23] 1 1 1 false 0 1 0 ].

(** opcodes_ez80.cpp:582-597. *)
Definition out_instrs_ez80 : list instr := [
  row "(C),A" [121; 237] 2 3 3 false 0 2 0;
  row "(BC),A" [121; 237] 2 3 3 false 0 2 0;
  row "(&),A" [211] 1 3 3 false 0 2 0;
  row "(C),B" [65; 237] 2 3 3 false 0 2 0;
  row "(BC),B" [65; 237] 2 3 3 false 0 2 0;
  row "(C),C" [73; 237] 2 3 3 false 0 2 0;
  row "(BC),C" [73; 237] 2 3 3 false 0 2 0;
  row "(C),D" [81; 237] 2 3 3 false 0 2 0;
  row "(BC),D" [81; 237] 2 3 3 false 0 2 0;
  row "(C),E" [89; 237] 2 3 3 false 0 2 0;
  row "(BC),E" [89; 237] 2 3 3 false 0 2 0;
  row "(C),H" [97; 237] 2 3 3 false 0 2 0;
  row "(BC),H" [97; 237] 2 3 3 false 0 2 0;
  row "(C),L" [105; 237] 2 3 3 false 0 2 0;
  row "(BC),L" [105; 237] 2 3 3 false 0 2 0 ].

(** opcodes_ez80.cpp:681-700. *)
Definition sbc_instrs_ez80 : list instr := [
  row "A,IXH" [156; 221] 2 2 2 false 0 2 0;
  row "A,IYH" [156; 253] 2 2 2 false 0 2 0;
  row "A,IXL" [157; 221] 2 2 2 false 0 2 0;
  row "A,IYL" [157; 253] 2 2 2 false 0 2 0;
  row "A,(IX@)" [158; 221] 2 4 4 false 0 3 0;
  row "A,(IY@)" [158; 253] 2 4 4 false 0 3 0;
  row "A,B" [152] 1 1 1 false 0 1 0;
  row "A,C" [153] 1 1 1 false 0 1 0;
  row "A,D" [154] 1 1 1 false 0 1 0;
  row "A,E" [155] 1 1 1 false 0 1 0;
  row "A,H" [156] 1 1 1 false 0 1 0;
  row "A,L" [157] 1 1 1 false 0 1 0;
  row "A,(HL)" [158] 1 2 2 false 0 1 0;
  row "A,A" [159] 1 1 1 false 0 1 0;
  row "A,&" [222] 1 2 2 false 0 2 0;
  row "HL,BC" [66; 237] 2 2 2 false 0 2 0;
  row "HL,DE" [82; 237] 2 2 2 false 0 2 0;
  row "HL,HL" [98; 237] 2 2 2 false 0 2 0;
  row "HL,SP" [114; 237] 2 2 2 false 0 2 0 ].

(** opcodes_ez80.cpp:482-483. *)
Definition cpl_instrs_ez80 : list instr := [
  row "" [47] 1 1 1 false 0 1 0 ].

(** opcodes_ez80.cpp:355-365. *)
Definition rl_instrs_ez80 : list instr := [
  row "(IX@)" [203; 221] 2 7 7 true 22 4 0;
  row "(IY@)" [203; 253] 2 7 7 true 22 4 0;
  row "B" [16; 203] 2 2 2 false 0 2 0;
  row "C" [17; 203] 2 2 2 false 0 2 0;
  row "D" [18; 203] 2 2 2 false 0 2 0;
  row "E" [19; 203] 2 2 2 false 0 2 0;
  row "H" [20; 203] 2 2 2 false 0 2 0;
  row "L" [21; 203] 2 2 2 false 0 2 0;
  row "(HL)" [22; 203] 2 5 5 false 0 2 0;
  row "A" [23; 203] 2 2 2 false 0 2 0 ].

(** opcodes_ez80.cpp:576-577. *)
Definition neg_instrs_ez80 : list instr := [
  row "" [68; 237] 2 2 2 false 0 2 0 ].

(** opcodes_ez80.cpp:637-647. *)
Definition rlc_instrs_ez80 : list instr := [
  row "(IX@)" [203; 221] 2 7 7 true 6 4 0;
  row "(IY@)" [203; 253] 2 7 7 true 6 4 0;
  row "B" [0; 203] 2 2 2 false 0 2 0;
  row "C" [1; 203] 2 2 2 false 0 2 0;
  row "D" [2; 203] 2 2 2 false 0 2 0;
  row "E" [3; 203] 2 2 2 false 0 2 0;
  row "H" [4; 203] 2 2 2 false 0 2 0;
  row "L" [5; 203] 2 2 2 false 0 2 0;
  row "(HL)" [6; 203] 2 5 5 false 0 2 0;
  row "A" [7; 203] 2 2 2 false 0 2 0 ].

(** opcodes_ez80.cpp:744-754. *)
Definition srl_instrs_ez80 : list instr := [
  row "(IX@)" [203; 221] 2 7 7 true 62 4 0;
  row "(IY@)" [203; 253] 2 7 7 true 62 4 0;
  row "B" [56; 203] 2 2 2 false 0 2 0;
  row "C" [57; 203] 2 2 2 false 0 2 0;
  row "D" [58; 203] 2 2 2 false 0 2 0;
  row "E" [59; 203] 2 2 2 false 0 2 0;
  row "H" [60; 203] 2 2 2 false 0 2 0;
  row "L" [61; 203] 2 2 2 false 0 2 0;
  row "(HL)" [62; 203] 2 5 5 false 0 2 0;
  row "A" [63; 203] 2 2 2 false 0 2 0 ].

(** opcodes_ez80.cpp:670-679. *)
Definition rst_instrs_ez80 : list instr := [
  row "00H" [199] 1 5 5 false 0 1 1;
  row "08H" [207] 1 5 5 false 0 1 1;
  row "10H" [215] 1 5 5 false 0 1 1;
  row "18H" [223] 1 5 5 false 0 1 1;
  row "20H" [231] 1 5 5 false 0 1 1;
  row "28H" [239] 1 5 5 false 0 1 1;
  row "30H" [247] 1 5 5 false 0 1 1;
  row "38H" [255] 1 5 5 false 0 1 1;
  row "#" [255] 0 5 5 false 0 1 1 ].

(** opcodes_ez80.cpp:57-76. *)
Definition in_instrs_ez80 : list instr := [
  row "A,(C)" [120; 237] 2 3 3 false 0 2 0;
  row "A,(BC)" [120; 237] 2 3 3 false 0 2 0;
  row "A,(&)" [219] 1 3 3 false 0 2 0;
  row "B,(C)" [64; 237] 2 3 3 false 0 2 0;
  row "B,(BC)" [64; 237] 2 3 3 false 0 2 0;
  row "C,(C)" [72; 237] 2 3 3 false 0 2 0;
  row "C,(BC)" [72; 237] 2 3 3 false 0 2 0;
  row "D,(C)" [80; 237] 2 3 3 false 0 2 0;
  row "D,(BC)" [80; 237] 2 3 3 false 0 2 0;
  row "E,(C)" [88; 237] 2 3 3 false 0 2 0;
  row "E,(BC)" [88; 237] 2 3 3 false 0 2 0;
  row "H,(C)" [96; 237] 2 3 3 false 0 2 0;
  row "H,(BC)" [96; 237] 2 3 3 false 0 2 0;
  row "L,(C)" [104; 237] 2 3 3 false 0 2 0;
  row "L,(BC)" [104; 237] 2 3 3 false 0 2 0;
  row "F,(C)" [112; 237] 2 3 3 false 0 2 0;
  row "F,(BC)" [112; 237] 2 3 3 false 0 2 0;
  row "(C)" [112; 237] 2 3 3 false 0 2 0;
  row "(BC)" [112; 237] 2 3 3 false 0 2 0 ].

(** opcodes_ez80.cpp:872-873. *)
Definition lddr_instrs_ez80 : list instr := [
  row "" [184; 237] 2 3 5 false 0 2 0 ].

(** opcodes_ez80.cpp:42-43. *)
Definition ei_instrs_ez80 : list instr := [
  row "" [251] 1 1 1 false 0 1 0 ].

(** opcodes_ez80.cpp:52-55. *)
Definition im_instrs_ez80 : list instr := [
  row "0" [70; 237] 2 2 2 false 0 2 0;
  row "1" [86; 237] 2 2 2 false 0 2 0;
  row "2" [94; 237] 2 2 2 false 0 2 0 ].

(** opcodes_ez80.cpp:379-398. *)
Definition adc_instrs_ez80 : list instr := [
  row "A,IXH" [140; 221] 2 2 2 false 0 2 0;
  row "A,IYH" [140; 253] 2 2 2 false 0 2 0;
  row "A,IXL" [141; 221] 2 2 2 false 0 2 0;
  row "A,IYL" [141; 253] 2 2 2 false 0 2 0;
  row "A,(IX@)" [142; 221] 2 4 4 false 0 3 0;
  row "A,(IY@)" [142; 253] 2 4 4 false 0 3 0;
  row "A,B" [136] 1 1 1 false 0 1 0;
  row "A,C" [137] 1 1 1 false 0 1 0;
  row "A,D" [138] 1 1 1 false 0 1 0;
  row "A,E" [139] 1 1 1 false 0 1 0;
  row "A,H" [140] 1 1 1 false 0 1 0;
  row "A,L" [141] 1 7 7 false 0 1 0;
  row "A,(HL)" [142] 1 2 2 false 0 1 0;
  row "A,A" [143] 1 1 1 false 0 1 0;
  row "A,&" [206] 1 2 2 false 0 2 0;
  row "HL,BC" [74; 237] 2 2 2 false 0 2 0;
  row "HL,DE" [90; 237] 2 2 2 false 0 2 0;
  row "HL,HL" [106; 237] 2 2 2 false 0 2 0;
  row "HL,SP" [122; 237] 2 2 2 false 0 2 0 ].

(** opcodes_ez80.cpp:485-486. *)
Definition daa_instrs_ez80 : list instr := [
  row "" [39] 1 1 1 false 0 1 0 ].

(** opcodes_ez80.cpp:39-40. *)
Definition di_instrs_ez80 : list instr := [
  row "" [243] 1 1 1 false 0 1 0 ].

(** opcodes_ez80.cpp:579-580. *)
Definition nop_instrs_ez80 : list instr := [
  row "" [0] 1 1 1 false 0 1 0 ].

(** opcodes_ez80.cpp:919-920. *)
Definition rlca_instrs_ez80 : list instr := [
  row "" [7] 1 1 1 false 0 1 0 ].

(** opcodes_ez80.cpp:717-727. *)
Definition sla_instrs_ez80 : list instr := [
  row "(IX@)" [203; 221] 2 7 7 true 38 4 0;
  row "(IY@)" [203; 253] 2 7 7 true 38 4 0;
  row "B" [32; 203] 2 2 2 false 0 2 0;
  row "C" [33; 203] 2 2 2 false 0 2 0;
  row "D" [34; 203] 2 2 2 false 0 2 0;
  row "E" [35; 203] 2 2 2 false 0 2 0;
  row "H" [36; 203] 2 2 2 false 0 2 0;
  row "L" [37; 203] 2 2 2 false 0 2 0;
  row "(HL)" [38; 203] 2 5 5 false 0 2 0;
  row "A" [39; 203] 2 2 2 false 0 2 0 ].

(** opcodes_ez80.cpp:555-556. *)
Definition ldi_instrs_ez80 : list instr := [
  row "" [160; 237] 2 5 5 false 0 2 0 ].

(** opcodes_ez80.cpp:473-474. *)
Definition ccf_instrs_ez80 : list instr := [
  row "" [63] 1 1 1 false 0 1 0 ].

(** opcodes_ez80.cpp:702-703. *)
Definition scf_instrs_ez80 : list instr := [
  row "" [55] 1 1 1 false 0 1 0 ].

(** opcodes_ez80.cpp:655-665. *)
Definition rrc_instrs_ez80 : list instr := [
  row "(IX@)" [203; 221] 2 7 7 true 14 4 0;
  row "(IY@)" [203; 253] 2 7 7 true 14 4 0;
  row "B" [8; 203] 2 2 2 false 0 2 0;
  row "C" [9; 203] 2 2 2 false 0 2 0;
  row "D" [10; 203] 2 2 2 false 0 2 0;
  row "E" [11; 203] 2 2 2 false 0 2 0;
  row "H" [12; 203] 2 2 2 false 0 2 0;
  row "L" [13; 203] 2 2 2 false 0 2 0;
  row "(HL)" [14; 203] 2 5 5 false 0 2 0;
  row "A" [15; 203] 2 2 2 false 0 2 0 ].

(** opcodes_ez80.cpp:851-852. *)
Definition halt_instrs_ez80 : list instr := [
  row "" [118] 1 1 1 false 0 1 0 ].

(** opcodes_ez80.cpp:649-650. *)
Definition rld_instrs_ez80 : list instr := [
  row "" [111; 237] 2 5 5 false 0 2 0 ].

(** opcodes_ez80.cpp:788-797. *)
Definition tst_instrs_ez80 : list instr := [
  row "A,B" [4; 237] 2 2 2 false 0 2 0;
  row "A,C" [12; 237] 2 2 2 false 0 2 0;
  row "A,D" [20; 237] 2 2 2 false 0 2 0;
  row "A,E" [28; 237] 2 2 2 false 0 2 0;
  row "A,H" [36; 237] 2 2 2 false 0 2 0;
  row "A,L" [44; 237] 2 2 2 false 0 2 0;
  row "A,(HL)" [52; 237] 2 3 3 false 0 2 0;
  row "A,A" [60; 237] 2 2 2 false 0 2 0;
  row "A,&" [100; 237] 2 3 3 false 0 3 0 ].

(** opcodes_ez80.cpp:476-477. *)
Definition cpd_instrs_ez80 : list instr := [
  row "" [169; 237] 2 3 3 false 0 2 0 ].

(** opcodes_ez80.cpp:842-843. *)
Definition cpdr_instrs_ez80 : list instr := [
  row "" [185; 237] 2 3 4 false 0 2 0 ].

(** opcodes_ez80.cpp:479-480. *)
Definition cpi_instrs_ez80 : list instr := [
  row "" [161; 237] 2 3 3 false 0 2 0 ].

(** opcodes_ez80.cpp:845-846. *)
Definition cpir_instrs_ez80 : list instr := [
  row "" [177; 237] 2 3 4 false 0 2 0 ].

(** opcodes_ez80.cpp:546-547. *)
Definition ind_instrs_ez80 : list instr := [
  row "" [170; 237] 2 5 5 false 0 2 0 ].

(** opcodes_ez80.cpp:860-861. *)
Definition indr_instrs_ez80 : list instr := [
  row "" [186; 237] 2 3 5 false 0 2 0 ].

(** opcodes_ez80.cpp:549-550. *)
Definition ini_instrs_ez80 : list instr := [
  row "" [162; 237] 2 5 5 false 0 2 0 ].

(** opcodes_ez80.cpp:869-870. *)
Definition inir_instrs_ez80 : list instr := [
  row "" [178; 237] 2 3 5 false 0 2 0 ].

(** opcodes_ez80.cpp:552-553. *)
Definition ldd_instrs_ez80 : list instr := [
  row "" [168; 237] 2 5 5 false 0 2 0 ].

(** opcodes_ez80.cpp:881-882. *)
Definition otdr_instrs_ez80 : list instr := [
  row "" [187; 237] 2 3 5 false 0 2 0 ].

(** opcodes_ez80.cpp:887-888. *)
Definition otir_instrs_ez80 : list instr := [
  row "" [179; 237] 2 3 5 false 0 2 0 ].

(** opcodes_ez80.cpp:899-900. *)
Definition outd_instrs_ez80 : list instr := [
  row "" [171; 237] 2 5 5 false 0 2 0 ].

(** opcodes_ez80.cpp:902-903. *)
Definition outi_instrs_ez80 : list instr := [
  row "" [163; 237] 2 5 5 false 0 2 0 ].

(** opcodes_ez80.cpp:913-914. *)
Definition reti_instrs_ez80 : list instr := [
  row "" [77; 237] 2 6 6 false 0 2 1 ].

(** opcodes_ez80.cpp:916-917. *)
Definition retn_instrs_ez80 : list instr := [
  row "" [69; 237] 2 6 6 false 0 2 1 ].

(** opcodes_ez80.cpp:922-923. *)
Definition rrca_instrs_ez80 : list instr := [
  row "" [15] 1 1 1 false 0 1 0 ].

(** opcodes_ez80.cpp:667-668. *)
Definition rrd_instrs_ez80 : list instr := [
  row "" [103; 237] 2 5 5 false 0 2 0 ].

(** opcodes_ez80.cpp:558-568. *)
Definition lea_instrs_ez80 : list instr := [
  row "BC,IX@" [2; 237] 2 3 3 false 0 3 0;
  row "BC,IY@" [3; 237] 2 3 3 false 0 3 0;
  row "DE,IX@" [18; 237] 2 3 3 false 0 3 0;
  row "DE,IY@" [19; 237] 2 3 3 false 0 3 0;
  row "HL,IX@" [34; 237] 2 3 3 false 0 3 0;
  row "HL,IY@" [35; 237] 2 3 3 false 0 3 0;
  row "IX,IX@" [50; 237] 2 3 3 false 0 3 0;
  row "IY,IY@" [51; 237] 2 3 3 false 0 3 0;
  row "IX,IY@" [84; 237] 2 3 3 false 0 3 0;
  row "IY,IX@" [85; 237] 2 3 3 false 0 3 0 ].

(** opcodes_ez80.cpp:599-601. *)
Definition pea_instrs_ez80 : list instr := [
  row "IX@" [101; 237] 2 5 5 false 0 3 1;
  row "IY@" [102; 237] 2 5 5 false 0 3 1 ].

(** opcodes_ez80.cpp:570-574. *)
Definition mlt_instrs_ez80 : list instr := [
  row "BC" [76; 237] 2 6 6 false 0 2 0;
  row "DE" [92; 237] 2 6 6 false 0 2 0;
  row "HL" [108; 237] 2 6 6 false 0 2 0;
  row "SP" [124; 237] 2 6 6 false 0 2 0 ].

(** opcodes_ez80.cpp:854-855. *)
Definition ind2_instrs_ez80 : list instr := [
  row "" [140; 237] 2 5 5 false 0 2 0 ].

(** opcodes_ez80.cpp:857-858. *)
Definition indm_instrs_ez80 : list instr := [
  row "" [138; 237] 2 5 5 false 0 2 0 ].

(** opcodes_ez80.cpp:863-864. *)
Definition ini2_instrs_ez80 : list instr := [
  row "" [132; 237] 2 5 5 false 0 2 0 ].

(** opcodes_ez80.cpp:866-867. *)
Definition inim_instrs_ez80 : list instr := [
  row "" [130; 237] 2 5 5 false 0 2 0 ].

(** opcodes_ez80.cpp:878-879. *)
Definition otdm_instrs_ez80 : list instr := [
  row "" [139; 237] 2 5 5 false 0 2 0 ].

(** opcodes_ez80.cpp:884-885. *)
Definition otim_instrs_ez80 : list instr := [
  row "" [131; 237] 2 5 5 false 0 2 0 ].

(** opcodes_ez80.cpp:890-897. *)
Definition out0_instrs_ez80 : list instr := [
  row "(&),B" [1; 237] 2 4 4 false 0 3 0;
  row "(&),C" [9; 237] 2 4 4 false 0 3 0;
  row "(&),D" [17; 237] 2 4 4 false 0 3 0;
  row "(&),E" [25; 237] 2 4 4 false 0 3 0;
  row "(&),H" [33; 237] 2 4 4 false 0 3 0;
  row "(&),L" [41; 237] 2 4 4 false 0 3 0;
  row "(&),A" [57; 237] 2 4 4 false 0 3 0 ].

(** opcodes_ez80.cpp:535-544. *)
Definition in0_instrs_ez80 : list instr := [
  row "B,(&)" [0; 237] 2 4 4 false 0 3 0;
  row "C,(&)" [8; 237] 2 4 4 false 0 3 0;
  row "D,(&)" [16; 237] 2 4 4 false 0 3 0;
  row "E,(&)" [24; 237] 2 4 4 false 0 3 0;
  row "H,(&)" [32; 237] 2 4 4 false 0 3 0;
  row "L,(&)" [40; 237] 2 4 4 false 0 3 0;
  row "A,(&)" [56; 237] 2 4 4 false 0 3 0;
  row "F,(&)" [48; 237] 2 4 4 false 0 3 0;
  row "(&)" [48; 237] 2 4 4 false 0 3 0 ].

(** opcodes_ez80.cpp:729-730. *)
Definition slp_instrs_ez80 : list instr := [
  row "" [118; 237] 2 2 2 false 0 2 0 ].

(** opcodes_ez80.cpp:925-926. *)
Definition ind2r_instrs_ez80 : list instr := [
  row "" [156; 237] 2 3 5 false 0 2 0 ].

(** opcodes_ez80.cpp:928-929. *)
Definition indmr_instrs_ez80 : list instr := [
  row "" [154; 237] 2 3 5 false 0 2 0 ].

(** opcodes_ez80.cpp:931-932. *)
Definition indrx_instrs_ez80 : list instr := [
  row "" [202; 237] 2 3 5 false 0 2 0 ].

(** opcodes_ez80.cpp:934-935. *)
Definition ini2r_instrs_ez80 : list instr := [
  row "" [148; 237] 2 3 5 false 0 2 0 ].

(** opcodes_ez80.cpp:937-938. *)
Definition inimr_instrs_ez80 : list instr := [
  row "" [146; 237] 2 3 5 false 0 2 0 ].

(** opcodes_ez80.cpp:940-941. *)
Definition inirx_instrs_ez80 : list instr := [
  row "" [194; 237] 2 3 5 false 0 2 0 ].

(** opcodes_ez80.cpp:943-944. *)
Definition otd2r_instrs_ez80 : list instr := [
  row "" [188; 237] 2 3 5 false 0 2 0 ].

(** opcodes_ez80.cpp:946-947. *)
Definition otdmr_instrs_ez80 : list instr := [
  row "" [155; 237] 2 3 5 false 0 2 0 ].

(** opcodes_ez80.cpp:949-950. *)
Definition otdrx_instrs_ez80 : list instr := [
  row "" [203; 237] 2 3 5 false 0 2 0 ].

(** opcodes_ez80.cpp:952-953. *)
Definition oti2r_instrs_ez80 : list instr := [
  row "" [180; 237] 2 3 5 false 0 2 0 ].

(** opcodes_ez80.cpp:955-956. *)
Definition otimr_instrs_ez80 : list instr := [
  row "" [147; 237] 2 3 5 false 0 2 0 ].

(** opcodes_ez80.cpp:958-959. *)
Definition otirx_instrs_ez80 : list instr := [
  row "" [195; 237] 2 3 5 false 0 2 0 ].

(** opcodes_ez80.cpp:961-962. *)
Definition outd2_instrs_ez80 : list instr := [
  row "" [172; 237] 2 5 5 false 0 2 0 ].

(** opcodes_ez80.cpp:964-965. *)
Definition outi2_instrs_ez80 : list instr := [
  row "" [164; 237] 2 5 5 false 0 2 0 ].

(** opcodes_ez80.cpp:967-968. *)
Definition rsmix_instrs_ez80 : list instr := [
  row "" [126; 237] 2 2 2 false 0 2 0 ].

(** opcodes_ez80.cpp:970-971. *)
Definition stmix_instrs_ez80 : list instr := [
  row "" [125; 237] 2 2 2 false 0 2 0 ].

(** opcodes_ez80.cpp:973-974. *)
Definition tstio_instrs_ez80 : list instr := [
  row "&" [116; 237] 2 4 4 false 0 3 0 ].

(** opcodes_ez80.cpp: the list in the order of its [next] links. *)
Definition opcode_list_ez80 : list opcode := [
  mkopcode (zs "LD") ld_instrs_ez80;
  mkopcode (zs "CALL") call_instrs_ez80;
  mkopcode (zs "RET") ret_instrs_ez80;
  mkopcode (zs "JR") jr_instrs_ez80;
  mkopcode (zs "JP") jp_instrs_ez80;
  mkopcode (zs "ADD") add_instrs_ez80;
  mkopcode (zs "INC") inc_instrs_ez80;
  mkopcode (zs "POP") pop_instrs_ez80;
  mkopcode (zs "PUSH") push_instrs_ez80;
  mkopcode (zs "DEC") dec_instrs_ez80;
  mkopcode (zs "CP") cp_instrs_ez80;
  mkopcode (zs "OR") or_instrs_ez80;
  mkopcode (zs "EX") ex_instrs_ez80;
  mkopcode (zs "XOR") xor_instrs_ez80;
  mkopcode (zs "EXX") exx_instrs_ez80;
  mkopcode (zs "SUB") sub_instrs_ez80;
  mkopcode (zs "AND") and_instrs_ez80;
  mkopcode (zs "SET") set_instrs_ez80;
  mkopcode (zs "BIT") bit_instrs_ez80;
  mkopcode (zs "DJNZ") djnz_instrs_ez80;
  mkopcode (zs "RRA") rra_instrs_ez80;
  mkopcode (zs "RR") rr_instrs_ez80;
  mkopcode (zs "SRA") sra_instrs_ez80;
  mkopcode (zs "RES") res_instrs_ez80;
  mkopcode (zs "LDIR") ldir_instrs_ez80;
  mkopcode (zs "RLA") rla_instrs_ez80;
  mkopcode (zs "OUT") out_instrs_ez80;
  mkopcode (zs "SBC") sbc_instrs_ez80;
  mkopcode (zs "CPL") cpl_instrs_ez80;
  mkopcode (zs "RL") rl_instrs_ez80;
  mkopcode (zs "NEG") neg_instrs_ez80;
  mkopcode (zs "RLC") rlc_instrs_ez80;
  mkopcode (zs "SRL") srl_instrs_ez80;
  mkopcode (zs "RST") rst_instrs_ez80;
  mkopcode (zs "IN") in_instrs_ez80;
  mkopcode (zs "LDDR") lddr_instrs_ez80;
  mkopcode (zs "EI") ei_instrs_ez80;
  mkopcode (zs "IM") im_instrs_ez80;
  mkopcode (zs "ADC") adc_instrs_ez80;
  mkopcode (zs "DAA") daa_instrs_ez80;
  mkopcode (zs "DI") di_instrs_ez80;
  mkopcode (zs "NOP") nop_instrs_ez80;
  mkopcode (zs "RLCA") rlca_instrs_ez80;
  mkopcode (zs "SLA") sla_instrs_ez80;
  mkopcode (zs "LDI") ldi_instrs_ez80;
  mkopcode (zs "CCF") ccf_instrs_ez80;
  mkopcode (zs "SCF") scf_instrs_ez80;
  mkopcode (zs "RRC") rrc_instrs_ez80;
  mkopcode (zs "HALT") halt_instrs_ez80;
  mkopcode (zs "RLD") rld_instrs_ez80;
  mkopcode (zs "TST") tst_instrs_ez80;
  mkopcode (zs "CPD") cpd_instrs_ez80;
  mkopcode (zs "CPDR") cpdr_instrs_ez80;
  mkopcode (zs "CPI") cpi_instrs_ez80;
  mkopcode (zs "CPIR") cpir_instrs_ez80;
  mkopcode (zs "IND") ind_instrs_ez80;
  mkopcode (zs "INDR") indr_instrs_ez80;
  mkopcode (zs "INI") ini_instrs_ez80;
  mkopcode (zs "INIR") inir_instrs_ez80;
  mkopcode (zs "LDD") ldd_instrs_ez80;
  mkopcode (zs "OTDR") otdr_instrs_ez80;
  mkopcode (zs "OTIR") otir_instrs_ez80;
  mkopcode (zs "OUTD") outd_instrs_ez80;
  mkopcode (zs "OUTI") outi_instrs_ez80;
  mkopcode (zs "RETI") reti_instrs_ez80;
  mkopcode (zs "RETN") retn_instrs_ez80;
  mkopcode (zs "RRCA") rrca_instrs_ez80;
  mkopcode (zs "RRD") rrd_instrs_ez80;
  mkopcode (zs "LEA") lea_instrs_ez80;
  mkopcode (zs "PEA") pea_instrs_ez80;
  mkopcode (zs "MLT") mlt_instrs_ez80;
  mkopcode (zs "IND2") ind2_instrs_ez80;
  mkopcode (zs "INDM") indm_instrs_ez80;
  mkopcode (zs "INI2") ini2_instrs_ez80;
  mkopcode (zs "INIM") inim_instrs_ez80;
  mkopcode (zs "OTDM") otdm_instrs_ez80;
  mkopcode (zs "OTIM") otim_instrs_ez80;
  mkopcode (zs "OUT0") out0_instrs_ez80;
  mkopcode (zs "IN0") in0_instrs_ez80;
  mkopcode (zs "SLP") slp_instrs_ez80;
  mkopcode (zs "IND2R") ind2r_instrs_ez80;
  mkopcode (zs "INDMR") indmr_instrs_ez80;
  mkopcode (zs "INDRX") indrx_instrs_ez80;
  mkopcode (zs "INI2R") ini2r_instrs_ez80;
  mkopcode (zs "INIMR") inimr_instrs_ez80;
  mkopcode (zs "INIRX") inirx_instrs_ez80;
  mkopcode (zs "OTD2R") otd2r_instrs_ez80;
  mkopcode (zs "OTDMR") otdmr_instrs_ez80;
  mkopcode (zs "OTDRX") otdrx_instrs_ez80;
  mkopcode (zs "OTI2R") oti2r_instrs_ez80;
  mkopcode (zs "OTIMR") otimr_instrs_ez80;
  mkopcode (zs "OTIRX") otirx_instrs_ez80;
  mkopcode (zs "OUTD2") outd2_instrs_ez80;
  mkopcode (zs "OUTI2") outi2_instrs_ez80;
  mkopcode (zs "RSMIX") rsmix_instrs_ez80;
  mkopcode (zs "STMIX") stmix_instrs_ez80;
  mkopcode (zs "TSTIO") tstio_instrs_ez80 ].
