(** Specification of operand expressions: what is written and what it means. *)
From Verif Require Import Base UtilsSpec.

(** ** Numbers *)

Definition digit_value (c : Z) : option Z :=
  if (48 <=? c) && (c <=? 57) then Some (c - 48)
  else if (65 <=? c) && (c <=? 70) then Some (c - 55)
  else if (97 <=? c) && (c <=? 102) then Some (c - 87)
  else None.
(** [c] is a digit of the base. *)
Definition digit_of (base c : Z) : Prop := exists d, digit_value c = Some d /\ d < base.
(** The number written by the digits, most significant first. *)
Definition numeral (base : Z) (ds : list Z) : Z :=
  fold_left (fun a c => a * base + match digit_value c with Some d => d | None => 0 end) ds 0.

(** The six ways to write a number: $1F 1Fh %101 101b 31 31d.  [h] is the suffix letter. *)
Inductive literal :=
  | HexDollar (ds : list Z)
  | HexSuffix (ds : list Z) (h : Z)
  | BinPercent (ds : list Z)
  | BinSuffix (ds : list Z) (b : Z)
  | Decimal (ds : list Z)
  | DecSuffix (ds : list Z) (d : Z).
Definition literal_text (l : literal) : list Z :=
  match l with
  | HexDollar ds => 36 :: ds
  | HexSuffix ds h => ds ++ [h]
  | BinPercent ds => 37 :: ds
  | BinSuffix ds b => ds ++ [b]
  | Decimal ds => ds
  | DecSuffix ds d => ds ++ [d]
  end.
Definition literal_base (l : literal) : Z :=
  match l with
  | HexDollar _ | HexSuffix _ _ => 16
  | BinPercent _ | BinSuffix _ _ => 2
  | Decimal _ | DecSuffix _ _ => 10
  end.
Definition literal_digits (l : literal) : list Z :=
  match l with
  | HexDollar ds | HexSuffix ds _ | BinPercent ds | BinSuffix ds _ | Decimal ds | DecSuffix ds _ => ds
  end.
(** Well formed: at least one digit, all of the base; the suffix in either case; a hexadecimal
    number with a suffix starts with a decimal digit. *)
Definition literal_ok (l : literal) : Prop :=
  literal_digits l <> [] /\ Forall (digit_of (literal_base l)) (literal_digits l) /\
  match l with
  | HexSuffix ds h => (h = 72 \/ h = 104) /\ digit_of 10 (hd 0 ds)
  | BinSuffix _ b => b = 66 \/ b = 98
  | DecSuffix _ d => d = 68 \/ d = 100
  | _ => True
  end.
Definition literal_number (l : literal) : Z := numeral (literal_base l) (literal_digits l).

(** The 32-bit pattern of a number, read as a signed number. *)
Definition signed32 (z : Z) : Z :=
  let r := z mod 4294967296 in if r <? 2147483648 then r else r - 4294967296.

(** ** Expressions *)

Inductive bop := Plus | Minus | Times | Divide | Modulo | Xor | BitAnd | BitOr | ShiftL | ShiftR
  | And | Or | LessEq | GreaterEq | Less | Greater | Equal1 | Equal2 | NotEqual.
Definition spelling (o : bop) : list Z :=
  match o with
  | Plus => zs "+" | Minus => zs "-" | Times => zs "*" | Divide => zs "/" | Modulo => zs "%"
  | Xor => zs "^" | BitAnd => zs "&" | BitOr => zs "|" | ShiftL => zs "<<" | ShiftR => zs ">>"
  | And => zs "&&" | Or => zs "||" | LessEq => zs "<=" | GreaterEq => zs ">=" | Less => zs "<"
  | Greater => zs ">" | Equal1 => zs "=" | Equal2 => zs "==" | NotEqual => zs "!="
  end.

Inductive sign := NoSign | Pos | Neg | Inv.
Definition sign_text (g : sign) : list Z :=
  match g with NoSign => [] | Pos => zs "+" | Neg => zs "-" | Inv => zs "~" end.

(** [Here] is the address counter; [Chr] a quoted character, [Esc] a quoted escape. *)
Inductive atom := Num (l : literal) | Here | Name (n : list Z) | Chr (c : Z) | Esc (c : Z).
Inductive term := Leaf (g : sign) (a : atom) | Par (g : sign) (e : expr)
with expr := Single (t : term) | Bin (e : expr) (o : bop) (t : term).

Definition name_char (c : Z) : Prop :=
  48 <= c <= 57 \/ 65 <= c <= 90 \/ 97 <= c <= 122 \/ In c (zs "_[]!?.").
Definition name_start (c : Z) : Prop := 65 <= c <= 90 \/ 97 <= c <= 122 \/ c = 95.
(** A symbol name that is not the anonymous label. *)
Definition name_ok (n : list Z) : Prop :=
  n <> zs "_" /\ (exists c t, n = c :: t /\ name_start c) /\ Forall name_char n.

Definition atom_ok (a : atom) : Prop :=
  match a with
  | Num l => literal_ok l
  | Here => True
  | Name n => name_ok n
  | Chr c => c <> 92
  | Esc c => c <> 35
  end.
Definition atom_text (a : atom) : list Z :=
  match a with
  | Num l => literal_text l
  | Here => zs "$"
  | Name n => n
  | Chr c => [39; c; 39]
  | Esc c => [39; 92; c; 39]
  end.

Definition term_name (t : term) : bool := match t with Leaf _ (Name _) => true | _ => false end.
Definition ends_name (e : expr) : bool := match e with Single t => term_name t | Bin _ _ t => term_name t end.

Notation blanks w := (Forall blank w).

(** The texts that write a term and an expression.  A name can contain an exclamation mark, so a
    blank must separate a name from the operator != *)
Inductive writes_term : term -> list Z -> Prop :=
  | W_leaf g w a : atom_ok a -> blanks w -> (g = NoSign -> w = []) ->
      writes_term (Leaf g a) (sign_text g ++ w ++ atom_text a)
  | W_par g w w1 e te w2 : blanks w -> (g = NoSign -> w = []) -> blanks w1 -> writes e te -> blanks w2 ->
      writes_term (Par g e) (sign_text g ++ w ++ 40 :: w1 ++ te ++ w2 ++ [41])
with writes : expr -> list Z -> Prop :=
  | W_single t tt : writes_term t tt -> writes (Single t) tt
  | W_bin e te w1 o w2 t tt : writes e te -> blanks w1 -> blanks w2 -> writes_term t tt ->
      (o = NotEqual -> ends_name e = true -> w1 <> []) ->
      writes (Bin e o t) (te ++ w1 ++ spelling o ++ w2 ++ tt).

(** Depth of parentheses. *)
Fixpoint nest_term (t : term) : Z := match t with Leaf _ _ => 0 | Par _ e => 1 + nest e end
with nest (e : expr) : Z := match e with Single t => nest_term t | Bin e _ t => Z.max (nest e) (nest_term t) end.

(** ** Meaning *)

(** A value, an error with its code, or an operation that C leaves undefined. *)
Inductive answer := Val (v : Z) | Err (code : Z) | Undefined.
Definition andthen (a : answer) (f : Z -> answer) : answer :=
  match a with Val v => f v | _ => a end.

(** The result of a signed operation; [wraps] is whether the compiled program wraps around. *)
Definition fit (wraps : bool) (z : Z) : answer :=
  if (-2147483648 <=? z) && (z <? 2147483648) then Val z
  else if wraps then Val (signed32 z) else Undefined.
Definition flag (b : bool) : Z := if b then 1 else 0.
Definition nonzero (z : Z) : bool := negb (z =? 0).

Definition divide (f : Z -> Z -> Z) (a b : Z) : answer :=
  if b =? 0 then Err 515 else if (a =? -2147483648) && (b =? -1) then Err 517 else Val (f a b).
Definition compute (wraps : bool) (o : bop) (a b : Z) : answer :=
  match o with
  | Plus => fit wraps (a + b) | Minus => fit wraps (a - b) | Times => fit wraps (a * b)
  | Divide => divide Z.quot a b | Modulo => divide Z.rem a b
  | Xor => Val (Z.lxor a b) | BitAnd => Val (Z.land a b) | BitOr => Val (Z.lor a b)
  | ShiftL => if (0 <=? b) && (b <? 32) then Val (signed32 (a * 2 ^ b)) else Undefined
  | ShiftR => if (0 <=? b) && (b <? 32) then Val (a / 2 ^ b) else Undefined
  | And => Val (flag (nonzero a && nonzero b)) | Or => Val (flag (nonzero a || nonzero b))
  | LessEq => Val (flag (a <=? b)) | GreaterEq => Val (flag (b <=? a))
  | Less => Val (flag (a <? b)) | Greater => Val (flag (b <? a))
  | Equal1 | Equal2 => Val (flag (a =? b)) | NotEqual => Val (flag (negb (a =? b)))
  end.
Definition apply_sign (wraps : bool) (g : sign) (v : Z) : answer :=
  match g with NoSign | Pos => Val v | Neg => fit wraps (- v) | Inv => Val (-1 - v) end.

(** A quoted character as a signed byte, and the letters of the escapes. *)
Definition char_value (c : Z) : Z := if c <? 128 then c else c - 256.
Definition escape_value (c : Z) : Z :=
  if (c =? 110) || (c =? 78) then 10 else if (c =? 114) || (c =? 82) then 13
  else if (c =? 116) || (c =? 84) then 9 else if c =? 48 then 0 else char_value c.

Section Meaning.
Variable wraps : bool.
Variable here : Z.                          (* address counter *)
Variable names : list Z -> option Z.        (* symbols *)

Definition atom_value (a : atom) : answer :=
  match a with
  | Num l => if literal_number l <=? 4294967295 then Val (signed32 (literal_number l)) else Err 516
  | Here => Val (signed32 here)
  | Name n => match names n with Some v => Val v | None => Err 262 end
  | Chr c => Val (char_value c)
  | Esc c => Val (escape_value c)
  end.
(** Strictly left to right, parentheses first. *)
Fixpoint term_value (t : term) : answer :=
  match t with
  | Leaf g a => andthen (atom_value a) (apply_sign wraps g)
  | Par g e => andthen (value e) (apply_sign wraps g)
  end
with value (e : expr) : answer :=
  match e with
  | Single t => term_value t
  | Bin e o t => andthen (value e) (fun a => andthen (term_value t) (compute wraps o a))
  end.
End Meaning.

Scheme term_mut := Induction for term Sort Prop with expr_mut := Induction for expr Sort Prop.
Combined Scheme term_expr_ind from term_mut, expr_mut.

(** The names an expression mentions. *)
Fixpoint term_mentions (n : list Z) (t : term) : Prop :=
  match t with Leaf _ (Name m) => m = n | Leaf _ _ => False | Par _ e => mentions n e end
with mentions (n : list Z) (e : expr) : Prop :=
  match e with Single t => term_mentions n t | Bin e _ t => mentions n e \/ term_mentions n t end.

(** ** Misspelt numbers: a run of letters and digits that is no number of its base. *)
Definition letter_or_digit (c : Z) : Prop := 48 <= c <= 57 \/ 65 <= c <= 90 \/ 97 <= c <= 122.
(** The run starts with 0x. *)
Definition zero_x (run : list Z) : Prop := exists x t, run = 48 :: x :: t /\ (x = 120 \/ x = 88).
Inductive misspelt : list Z -> Z -> Prop :=
| BadDollar run : Forall letter_or_digit run -> digit_of 16 (hd 0 run) -> ~ Forall (digit_of 16) run ->
    ~ zero_x run -> misspelt (36 :: run) 513
| BadPercent run : Forall letter_or_digit run -> ~ Forall (digit_of 2) run -> misspelt (37 :: run) 514
| BadH run h : h = 72 \/ h = 104 -> Forall letter_or_digit run -> digit_of 10 (hd 0 run) ->
    ~ Forall (digit_of 16) run -> ~ zero_x run -> misspelt (run ++ [h]) 513
| BadB run b : b = 66 \/ b = 98 -> Forall letter_or_digit run -> digit_of 10 (hd 0 run) ->
    ~ Forall (digit_of 2) run -> misspelt (run ++ [b]) 514
| BadD run d : d = 68 \/ d = 100 -> Forall letter_or_digit run -> digit_of 10 (hd 0 run) ->
    ~ Forall (digit_of 10) run -> misspelt (run ++ [d]) 512
| BadPlain run x : letter_or_digit x -> ~ In x [72; 104; 66; 98; 68; 100] -> Forall letter_or_digit run ->
    digit_of 10 (hd 0 (run ++ [x])) -> ~ Forall (digit_of 10) (run ++ [x]) -> misspelt (run ++ [x]) 512.
