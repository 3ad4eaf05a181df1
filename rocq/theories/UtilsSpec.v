(** Specification of the lexical scanners: what the pieces of an operand look like. *)
From Verif Require Import Base State.

(** One element of a string body: a plain character, or a backslash and any character. *)
Inductive sitem := SC (c : Z) | SE (c : Z).
Definition sitem_text (i : sitem) : text := match i with SC c => [c] | SE c => [92; c] end.
Definition sitem_ok (i : sitem) : Prop :=
  match i with SC c => c <> 34 /\ c <> 92 | SE _ => True end.

(** A piece of an operand: a character with no special meaning, a string literal, a character
    literal, or a parenthesised group. *)
Inductive piece :=
  | PChar (c : Z)
  | PStr (l : list sitem)
  | PLit (c : Z)               (* 'c' *)
  | PEsc (c : Z)               (* '\c' *)
  | PGroup (l : list piece).

Fixpoint piece_text (p : piece) : text :=
  match p with
  | PChar c => [c]
  | PStr l => 34 :: flat_map sitem_text l ++ [34]
  | PLit c => [39; c; 39]
  | PEsc c => [39; 92; c; 39]
  | PGroup l => 40 :: flat_map piece_text l ++ [41]
  end.
Definition pieces_text (l : list piece) : text := flat_map piece_text l.

(** Characters that end a code line. *)
Definition line_ender (c : Z) : Prop := c = 10 \/ c = 13 \/ c = 59 \/ c = 92.
(** Characters that open or close something. *)
Definition bracket (c : Z) : Prop := c = 34 \/ c = 39 \/ c = 92 \/ c = 40 \/ c = 41.

(** Well-formed pieces.  [top] is true outside parentheses, where delimiters and line enders
    must not occur; inside parentheses they may. *)
Inductive piece_ok (delims : text) : bool -> piece -> Prop :=
  | ok_char top c : ~ bracket c ->
      (top = true -> ~ In c delims /\ ~ line_ender c) -> piece_ok delims top (PChar c)
  | ok_str top l : Forall sitem_ok l -> piece_ok delims top (PStr l)
  | ok_lit top c : c <> 92 -> piece_ok delims top (PLit c)
  | ok_esc top c : piece_ok delims top (PEsc c)
  | ok_group top l : Forall (piece_ok delims false) l -> piece_ok delims top (PGroup l).

(** The same without groups: parentheses are ordinary characters.  This is what ends a
    code line or separates instructions. *)
Inductive flat_ok (delims : text) : piece -> Prop :=
  | flat_char c : c <> 34 -> c <> 39 -> ~ In c delims -> ~ line_ender c -> flat_ok delims (PChar c)
  | flat_str l : Forall sitem_ok l -> flat_ok delims (PStr l)
  | flat_lit c : c <> 92 -> flat_ok delims (PLit c)
  | flat_esc c : flat_ok delims (PEsc c).

(** Blanks inside a line. *)
Definition blank (c : Z) : Prop := c = 32 \/ c = 9 \/ c = 11 \/ c = 12.

(** An operand as written: its pieces, with blanks around it. *)
Record operand := mkoperand { o_before : text; o_body : list piece; o_after : text }.
Definition operand_text (o : operand) : text := pieces_text (o_body o).
Definition operand_okd (delims : text) (o : operand) : Prop :=
  Forall blank (o_before o) /\ Forall blank (o_after o) /\
  Forall (piece_ok delims true) (o_body o) /\
  (exists c t, operand_text o = c :: t /\ ~ blank c) /\
  (exists c t, operand_text o = t ++ [c] /\ ~ blank c /\ c <> 10 /\ c <> 13) /\
  zlen (operand_text o) + zlen (o_after o) <= 254.
Definition operand_ok : operand -> Prop := operand_okd [44].

(** Operands separated by commas. *)
Fixpoint list_text (l : list operand) : text :=
  match l with
  | [] => []
  | [o] => o_before o ++ operand_text o ++ o_after o
  | o :: l' => o_before o ++ operand_text o ++ o_after o ++ 44 :: list_text l'
  end.
