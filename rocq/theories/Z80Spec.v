(** The Z80 instruction set: what a sequence of bytes means to the processor. *)
From Verif Require Import Base State UtilsSpec StorageSpec.

(** An operand: a register, condition, or fixed text; a number; a number as an address; the target
    of a relative jump; an index register with a displacement; a bit number; a restart address. *)
Inductive operand :=
  | Fixed (t : text)
  | Byte (n : Z) | Word (n : Z) | PortAt (n : Z) | WordAt (n : Z)
  | Target (a : Z) | Indexed (r : text) (d : Z) | BitNo (n : Z) | Restart (a : Z).
Record insn := mkinsn { in_name : text; in_operands : list operand }.

(** An operand whose value is still to be read. *)
Inductive shape :=
  | K (t : text) | SByte | SWord | SPortAt | SWordAt | SRel | SIndex (r : text) | SBit (n : Z) | SRst (a : Z).

(** ** Opcodes

    An opcode byte is split into bits xx yyy zzz, and yyy into pp q. *)
Definition nth_text (n : Z) (l : list text) : text := nth (Z.to_nat n) l [].
Definition r8 := [zs "B"; zs "C"; zs "D"; zs "E"; zs "H"; zs "L"; zs "(HL)"; zs "A"].
Definition r16 := [zs "BC"; zs "DE"; zs "HL"; zs "SP"].
Definition r16af := [zs "BC"; zs "DE"; zs "HL"; zs "AF"].
Definition conds := [zs "NZ"; zs "Z"; zs "NC"; zs "C"; zs "PO"; zs "PE"; zs "P"; zs "M"].
Definition shifts := [zs "RLC"; zs "RRC"; zs "RL"; zs "RR"; zs "SLA"; zs "SRA"; zs "SLL"; zs "SRL"].
Definition blocks := [[zs "LDI"; zs "CPI"; zs "INI"; zs "OUTI"]; [zs "LDD"; zs "CPD"; zs "IND"; zs "OUTD"];
                      [zs "LDIR"; zs "CPIR"; zs "INIR"; zs "OTIR"]; [zs "LDDR"; zs "CPDR"; zs "INDR"; zs "OTDR"]].
(** Accumulator operations; the first, second and fourth name the accumulator. *)
Definition alu (y : Z) (o : shape) : text * list shape :=
  let A := K (zs "A") in
  match y with
  | 0 => (zs "ADD", [A; o]) | 1 => (zs "ADC", [A; o]) | 2 => (zs "SUB", [o]) | 3 => (zs "SBC", [A; o])
  | 4 => (zs "AND", [o]) | 5 => (zs "XOR", [o]) | 6 => (zs "OR", [o]) | _ => (zs "CP", [o])
  end.

(** Without a prefix, or after a DD or FD prefix, which replaces HL by IX or IY: (HL) by the
    index register with a displacement, and H and L by its halves in instructions that do not
    also have (HL). *)
Section Main.
Variable ix : option text.
Definition hl (t : text) : text := match ix with Some r => if eqbl t (zs "HL") then r else t | None => t end.
Definition mem : shape := match ix with Some r => SIndex r | None => K (zs "(HL)") end.
Definition reg (n : Z) : shape :=
  match ix with
  | Some r => if n =? 4 then K (r ++ zs "H") else if n =? 5 then K (r ++ zs "L") else if n =? 6 then mem else K (nth_text n r8)
  | None => if n =? 6 then mem else K (nth_text n r8)
  end.
Definition reg_pair (p : Z) : shape := K (hl (nth_text p r16)).
Definition opcode_unprefixed (op : Z) : option (text * list shape) :=
  let x := op / 64 in let y := op / 8 mod 8 in let z := op mod 8 in let p := y / 2 in let q := y mod 2 in
  let A := K (zs "A") in let HL := K (hl (zs "HL")) in
  match x with
  | 0 =>
    match z with
    | 0 =>
      match y with
      | 0 => Some (zs "NOP", [])
      | 1 => Some (zs "EX", [K (zs "AF"); K (zs "AF'")])
      | 2 => Some (zs "DJNZ", [SRel])
      | 3 => Some (zs "JR", [SRel])
      | _ => Some (zs "JR", [K (nth_text (y - 4) conds); SRel])
      end
    | 1 => if q =? 0 then Some (zs "LD", [reg_pair p; SWord]) else Some (zs "ADD", [HL; reg_pair p])
    | 2 =>
      match y with
      | 0 => Some (zs "LD", [K (zs "(BC)"); A])
      | 1 => Some (zs "LD", [A; K (zs "(BC)")])
      | 2 => Some (zs "LD", [K (zs "(DE)"); A])
      | 3 => Some (zs "LD", [A; K (zs "(DE)")])
      | 4 => Some (zs "LD", [SWordAt; HL])
      | 5 => Some (zs "LD", [HL; SWordAt])
      | 6 => Some (zs "LD", [SWordAt; A])
      | _ => Some (zs "LD", [A; SWordAt])
      end
    | 3 => Some (if q =? 0 then zs "INC" else zs "DEC", [reg_pair p])
    | 4 => Some (zs "INC", [reg y])
    | 5 => Some (zs "DEC", [reg y])
    | 6 => Some (zs "LD", [reg y; SByte])
    | _ => Some (nth_text y [zs "RLCA"; zs "RRCA"; zs "RLA"; zs "RRA"; zs "DAA"; zs "CPL"; zs "SCF"; zs "CCF"], [])
    end
  | 1 =>
    if (y =? 6) && (z =? 6) then Some (zs "HALT", [])
    else if y =? 6 then Some (zs "LD", [mem; K (nth_text z r8)])
    else if z =? 6 then Some (zs "LD", [K (nth_text y r8); mem])
    else Some (zs "LD", [reg y; reg z])
  | 2 => Some (alu y (reg z))
  | _ =>
    match z with
    | 0 => Some (zs "RET", [K (nth_text y conds)])
    | 1 =>
      if q =? 0 then Some (zs "POP", [K (hl (nth_text p r16af))])
      else match p with
           | 0 => Some (zs "RET", [])
           | 1 => Some (zs "EXX", [])
           | 2 => Some (zs "JP", [K (zs "(" ++ hl (zs "HL") ++ zs ")")])
           | _ => Some (zs "LD", [K (zs "SP"); HL])
           end
    | 2 => Some (zs "JP", [K (nth_text y conds); SWord])
    | 3 =>
      match y with
      | 0 => Some (zs "JP", [SWord])
      | 1 => None                                               (* prefix CB *)
      | 2 => Some (zs "OUT", [SPortAt; A])
      | 3 => Some (zs "IN", [A; SPortAt])
      | 4 => Some (zs "EX", [K (zs "(SP)"); HL])
      | 5 => Some (zs "EX", [K (zs "DE"); K (zs "HL")])
      | 6 => Some (zs "DI", [])
      | _ => Some (zs "EI", [])
      end
    | 4 => Some (zs "CALL", [K (nth_text y conds); SWord])
    | 5 =>
      if q =? 0 then Some (zs "PUSH", [K (hl (nth_text p r16af))])
      else if p =? 0 then Some (zs "CALL", [SWord]) else None   (* prefixes DD, ED, FD *)
    | 6 => Some (alu y SByte)
    | _ => Some (zs "RST", [SRst (8 * y)])
    end
  end.
End Main.

(** After CB. *)
Definition opcode_cb (op : Z) : text * list shape :=
  let x := op / 64 in let y := op / 8 mod 8 in let r := K (nth_text (op mod 8) r8) in
  match x with
  | 0 => (nth_text y shifts, [r])
  | 1 => (zs "BIT", [SBit y; r])
  | 2 => (zs "RES", [SBit y; r])
  | _ => (zs "SET", [SBit y; r])
  end.
(** After DD CB or FD CB and the displacement; all but BIT also load the result into a register
    when zzz names one. *)
Definition opcode_index_cb (r : text) (op : Z) : text * list shape :=
  let x := op / 64 in let y := op / 8 mod 8 in let z := op mod 8 in
  let copy := if z =? 6 then [] else [K (nth_text z r8)] in
  match x with
  | 0 => (nth_text y shifts, copy ++ [SIndex r])
  | 1 => (zs "BIT", [SBit y; SIndex r])
  | 2 => (zs "RES", copy ++ [SBit y; SIndex r])
  | _ => (zs "SET", copy ++ [SBit y; SIndex r])
  end.
(** After ED. *)
Definition opcode_ed (op : Z) : option (text * list shape) :=
  let x := op / 64 in let y := op / 8 mod 8 in let z := op mod 8 in let p := y / 2 in let q := y mod 2 in
  let A := K (zs "A") in let HL := K (zs "HL") in let rp := K (nth_text p r16) in
  match x with
  | 1 =>
    match z with
    | 0 => Some (zs "IN", [K (if y =? 6 then zs "F" else nth_text y r8); K (zs "(C)")])
    | 1 => Some (zs "OUT", [K (zs "(C)"); K (if y =? 6 then zs "0" else nth_text y r8)])
    | 2 => Some (if q =? 0 then zs "SBC" else zs "ADC", [HL; rp])
    | 3 => Some (zs "LD", if q =? 0 then [SWordAt; rp] else [rp; SWordAt])
    | 4 => Some (zs "NEG", [])
    | 5 => Some (if y =? 1 then zs "RETI" else zs "RETN", [])
    | 6 => Some (zs "IM", [K (nth_text y [zs "0"; zs "0"; zs "1"; zs "2"; zs "0"; zs "0"; zs "1"; zs "2"])])
    | _ =>
      match y with
      | 0 => Some (zs "LD", [K (zs "I"); A])
      | 1 => Some (zs "LD", [K (zs "R"); A])
      | 2 => Some (zs "LD", [A; K (zs "I")])
      | 3 => Some (zs "LD", [A; K (zs "R")])
      | 4 => Some (zs "RRD", [])
      | 5 => Some (zs "RLD", [])
      | _ => None
      end
    end
  | 2 => if (4 <=? y) && (z <? 4) then Some (nth_text z (nth (Z.to_nat (y - 4)) [nth 0 blocks []; nth 1 blocks []; nth 2 blocks []; nth 3 blocks []] []), []) else None
  | _ => None
  end.

(** The instruction at the head of a stream of bytes, and the bytes its operands are read from. *)
Definition opcode_at (l : list Z) : option ((text * list shape) * list Z) :=
  let with_rest (o : option (text * list shape)) (r : list Z) := match o with Some x => Some (x, r) | None => None end in
  match l with
  | [] => None
  | a :: l1 =>
    if a =? 0xCB then match l1 with b :: r => Some (opcode_cb b, r) | [] => None end
    else if a =? 0xED then match l1 with b :: r => with_rest (opcode_ed b) r | [] => None end
    else if (a =? 0xDD) || (a =? 0xFD) then
      let r := if a =? 0xDD then zs "IX" else zs "IY" in
      match l1 with
      | [] => None
      | b :: l2 =>
        if b =? 0xCB then match l2 with d :: c :: l3 => Some (opcode_index_cb r c, d :: l3) | _ => None end
        else with_rest (opcode_unprefixed (Some r) b) l2
      end
    else with_rest (opcode_unprefixed None a) l1
  end.

(** ** Operands *)
Definition signed (b : Z) : Z := if b <? 128 then b else b - 256.
(** Relative jumps take two bytes and count from the instruction after them. *)
Fixpoint operands (pc : Z) (l : list shape) (s : list Z) : option (list operand * list Z) :=
  let put (o : operand) (l' : list shape) (s' : list Z) :=
    match operands pc l' s' with Some (os, r) => Some (o :: os, r) | None => None end in
  match l with
  | [] => Some ([], s)
  | K t :: l' => put (Fixed t) l' s
  | SBit n :: l' => put (BitNo n) l' s
  | SRst a :: l' => put (Restart a) l' s
  | SByte :: l' => match s with a :: s' => put (Byte a) l' s' | _ => None end
  | SPortAt :: l' => match s with a :: s' => put (PortAt a) l' s' | _ => None end
  | SWord :: l' => match s with a :: b :: s' => put (Word (a + 256 * b)) l' s' | _ => None end
  | SWordAt :: l' => match s with a :: b :: s' => put (WordAt (a + 256 * b)) l' s' | _ => None end
  | SRel :: l' => match s with a :: s' => put (Target ((pc + 2 + signed a) mod 65536)) l' s' | _ => None end
  | SIndex r :: l' => match s with a :: s' => put (Indexed r (signed a)) l' s' | _ => None end
  end.
(** The instruction at address [pc], and the bytes after it. *)
Definition decode (pc : Z) (l : list Z) : option (insn * list Z) :=
  match opcode_at l with
  | None => None
  | Some ((n, sh), s) => match operands pc sh s with Some (os, r) => Some (mkinsn n os, r) | None => None end
  end.

(** ** Written instructions

    An instruction is written as a name and an operand field in which a value is marked by [&]
    (byte), [*] (word), [%] (relative jump), [@] (displacement), [^] (bit), [#] (restart). *)
Fixpoint split_commas (cur t : text) : list text :=
  match t with
  | [] => [rev cur]
  | c :: t' => if c =? ch "," then rev cur :: split_commas [] t' else split_commas (c :: cur) t'
  end.
Definition pieces (t : text) : list text := match t with [] => [] | _ => split_commas [] t end.
Definition hex_digit (c : Z) : Z := if c <=? 57 then c - 48 else c - 55.
(** What one piece means, given the values of the marks not yet used. *)
Definition piece (name p : text) (vs : list Z) : option (operand * list Z) :=
  if eqbl name (zs "RST") then
    match p, vs with
    | [_], v :: vs' => Some (Restart v, vs')
    | a :: b :: _, _ => Some (Restart (16 * hex_digit a + hex_digit b), vs)      (* 08H and so on *)
    | _, _ => None
    end
  else
    match vs with
    | v :: vs' =>
      if eqbl p (zs "&") then Some (Byte (v mod 256), vs')
      else if eqbl p (zs "*") then Some (Word (v mod 65536), vs')
      else if eqbl p (zs "(&)") then Some (PortAt (v mod 256), vs')
      else if eqbl p (zs "(*)") then Some (WordAt (v mod 65536), vs')
      else if eqbl p (zs "%") then Some (Target (v mod 65536), vs')
      else if eqbl p (zs "(IX@)") then Some (Indexed (zs "IX") v, vs')
      else if eqbl p (zs "(IY@)") then Some (Indexed (zs "IY") v, vs')
      else if eqbl p (zs "^") then Some (BitNo v, vs')
      else Some (Fixed p, vs)
    | [] => Some (Fixed p, [])
    end.
Fixpoint pieces_mean (name : text) (ps : list text) (vs : list Z) : option (list operand) :=
  match ps with
  | [] => match vs with [] => Some [] | _ => None end
  | p :: ps' =>
    match piece name p vs with
    | Some (o, vs') => match pieces_mean name ps' vs' with Some os => Some (o :: os) | None => None end
    | None => None
    end
  end.
(** SL1 is another name of SLL, and the accumulator may be named where it is always meant. *)
Definition written_insn (name field : text) (vs : list Z) : option insn :=
  let ps := pieces field in
  let ps := if existsb (eqbl name) [zs "SUB"; zs "AND"; zs "XOR"; zs "OR"; zs "CP"]
            then match ps with [a; b] => if eqbl a (zs "A") then [b] else ps | _ => ps end else ps in
  match pieces_mean name ps vs with
  | Some os => Some (mkinsn (if eqbl name (zs "SL1") then zs "SLL" else name) os)
  | None => None
  end.
