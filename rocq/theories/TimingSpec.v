(** The documented execution times of Z80 instructions, in clock periods (T-states).
    They are given from the opcode alone, through the usual division of an opcode byte into
    fields of two, three and three bits; nothing here refers to the assembler's tables.
    A pair is the time when the condition fails or the loop ends, and the time otherwise. *)
From Coq Require Import ZArith List Bool.
Import ListNotations.
Local Open Scope Z_scope.

Definition fx (b : Z) : Z := b / 64.
Definition fy (b : Z) : Z := (b / 8) mod 8.
Definition fz (b : Z) : Z := b mod 8.
Definition always (t : Z) : Z * Z := (t, t).

(** Does the unprefixed opcode read or write the byte that HL points to, as an operand that
    an index prefix turns into a displaced one? *)
Definition through_hl (b : Z) : bool :=
  match fx b with
  | 0 => (fy b =? 6) && (4 <=? fz b) && (fz b <=? 6)
  | 1 => negb (b =? 118) && ((fy b =? 6) || (fz b =? 6))
  | 2 => fz b =? 6
  | _ => false
  end.

Definition time_plain (b : Z) : Z * Z :=
  let y := fy b in
  match fx b, fz b with
  | 0, 0 => if y <=? 1 then always 4            (* NOP, EX AF,AF' *)
            else if y =? 2 then (8, 13)         (* DJNZ *)
            else if y =? 3 then always 12       (* JR *)
            else (7, 12)                        (* JR on a condition *)
  | 0, 1 => always (if Z.even y then 10 else 11)                      (* LD rr,nn; ADD HL,rr *)
  | 0, 2 => always (if y <=? 3 then 7 else if y <=? 5 then 16 else 13) (* (BC), (DE); HL; A *)
  | 0, 3 => always 6                                                  (* INC rr, DEC rr *)
  | 0, 4 | 0, 5 => always (if y =? 6 then 11 else 4)                  (* INC r, DEC r *)
  | 0, 6 => always (if y =? 6 then 10 else 7)                         (* LD r,n *)
  | 0, _ => always 4                                                  (* RLCA ... CCF *)
  | 1, _ | 2, _ => always (if through_hl b then 7 else 4)             (* LD r,r; HALT; arithmetic *)
  | _, 0 => (5, 11)                                                   (* RET on a condition *)
  | _, 1 => always (if (y =? 3) || (y =? 5) then 4 else if y =? 7 then 6 else 10)
                                                  (* EXX, JP (HL); LD SP,HL; POP, RET *)
  | _, 2 => always 10                                                 (* JP on a condition *)
  | _, 3 => always (if y =? 0 then 10 else if y <=? 3 then 11 else if y =? 4 then 19 else 4)
                                                  (* JP; OUT, IN; EX (SP),HL; EX DE,HL, DI, EI *)
  | _, 4 => (10, 17)                                                  (* CALL on a condition *)
  | _, 5 => always (if y =? 1 then 17 else 11)                        (* CALL; PUSH *)
  | _, 6 => always 7                                                  (* arithmetic with n *)
  | _, _ => always 11                                                 (* RST *)
  end.

(** Rotations and bit operations. *)
Definition time_cb (b : Z) : Z * Z :=
  always (if fz b =? 6 then if fx b =? 1 then 12 else 15 else 8).

Definition time_ed (b : Z) : Z * Z :=
  let y := fy b in
  match fx b, fz b with
  | 1, 0 | 1, 1 => always 12                                          (* IN r,(C); OUT (C),r *)
  | 1, 2 => always 15                                                 (* SBC HL,rr; ADC HL,rr *)
  | 1, 3 => always 20                                                 (* LD (nn),rr; LD rr,(nn) *)
  | 1, 5 => always 14                                                 (* RETN, RETI *)
  | 1, 7 => always (if y <=? 3 then 9 else if y <=? 5 then 18 else 8) (* I and R; RRD, RLD *)
  | 1, _ => always 8                                                  (* NEG, IM *)
  | _, _ => if y <=? 5 then always 16 else (16, 21)                   (* LDI ...; LDIR ... *)
  end.

(** After an index prefix: one more fetch, and for a displaced operand eight periods more to
    form the address, five when a constant is fetched meanwhile. *)
Definition time_index (b : Z) : Z * Z :=
  let '(u, v) := time_plain b in
  let k := if through_hl b then if b =? 54 then 9 else 12 else 4 in
  (u + k, v + k).

Definition time_index_cb (b : Z) : Z * Z := always (if fx b =? 1 then 20 else 23).

(** The time of the instruction with these opcode bytes, operands left out. *)
Definition time_of (bs : list Z) : option (Z * Z) :=
  match bs with
  | [203; b] => Some (time_cb b)
  | [237; b] => Some (time_ed b)
  | [221; b] | [253; b] => Some (time_index b)
  | [221; 203; b] | [253; 203; b] => Some (time_index_cb b)
  | [b] => Some (time_plain b)
  | _ => None
  end.
