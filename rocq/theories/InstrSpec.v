(** Specification of instruction encoding: widths and eZ80 suffixes. *)
From Verif Require Import Base State.

(** Bytes taken by an operand wildcard of a table row; [long] is whether immediates are 24 bits
    wide.  A bit number takes no byte of its own, it is merged into the last opcode byte. *)
Definition operand_width (long : bool) (c : Z) : Z :=
  if c =? ch "*" then (if long then 3 else 2)
  else if (c =? ch "&") || (c =? ch "%") || (c =? ch "@") || (c =? ch "#") then 1 else 0.
Definition operands_width (long : bool) (pattern : list Z) : Z :=
  fold_right (fun c n => operand_width long c + n) 0 pattern.

(** The eZ80 suffixes: the address mode S or L, and the size of the immediate, IS or IL. *)
Inductive suffix := SIS | LIS | SIL | LIL.
(** UM0077: the prefix bytes. *)
Definition prefix_byte (x : suffix) : Z := match x with SIS => 64 | LIS => 73 | SIL => 82 | LIL => 91 end.
Definition long_immediate (x : suffix) : bool := match x with SIL | LIL => true | _ => false end.
(** UM0077: what the full and partial suffixes mean in ADL mode and in Z80 mode. *)
Definition suffix_meaning (adl : bool) (t : list Z) : option suffix :=
  if eqbl t (zs ".sis") then Some SIS
  else if eqbl t (zs ".lis") then Some LIS
  else if eqbl t (zs ".sil") then Some SIL
  else if eqbl t (zs ".lil") then Some LIL
  else if eqbl t (zs ".s") then Some (if adl then SIL else SIS)
  else if eqbl t (zs ".l") then Some (if adl then LIL else LIS)
  else if eqbl t (zs ".is") then Some (if adl then LIS else SIS)
  else if eqbl t (zs ".il") then Some (if adl then LIL else SIL)
  else None.
