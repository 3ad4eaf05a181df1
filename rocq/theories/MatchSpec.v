(** Specification of how an instruction's operands are written. *)
From Verif Require Import Base State UtilsSpec.

(** What stands in an operand field: characters of register names and punctuation, expressions,
    and the displacement of an index register.  Each may be followed by blanks. *)
Inductive item := IChar (c : Z) | IPlain (l : list piece) | IIndex (l : list piece).
Definition item_text (i : item) : text := match i with IChar c => [c] | IPlain l | IIndex l => pieces_text l end.
Definition field := list (item * text).
Definition wtext (ws : field) : text := flat_map (fun w => item_text (fst w) ++ snd w) ws.

Definition letter_or_digit (c : Z) : Prop := 48 <= c <= 57 \/ 65 <= c <= 90 \/ 97 <= c <= 122.
Definition name_char (c : Z) : Prop := letter_or_digit c \/ In c (zs "_[]!?.").
(** The same character, letters in either case. *)
Definition same_char (c d : Z) : Prop :=
  c = d \/ (65 <= c <= 90 /\ d = c + 32) \/ (97 <= c <= 122 /\ d = c - 32).
Definition same_word (a b : text) : Prop := Forall2 same_char a b.

(** The wildcards of a table row that stand for an expression. *)
Definition wild (c : Z) : Prop := In c (zs "*&%#^").

(** [spells pat ws ops]: the field [ws] writes the row [pat] with the operand texts [ops].  A
    displacement may be left out. *)
Inductive spells : text -> field -> list text -> Prop :=
  | sp_nil : spells [] [] []
  | sp_char c c' b pat ws ops : ~ wild c -> c <> ch "@" -> same_char c' c -> Forall blank b -> spells pat ws ops ->
      spells (c :: pat) ((IChar c', b) :: ws) ops
  | sp_plain c l b pat ws ops : wild c -> Forall blank b -> spells pat ws ops ->
      spells (c :: pat) ((IPlain l, b) :: ws) ((pieces_text l ++ b) :: ops)
  | sp_index l b pat ws ops : Forall blank b -> spells pat ws ops ->
      spells (ch "@" :: pat) ((IIndex l, b) :: ws) ((pieces_text l ++ b) :: ops)
  | sp_no_index pat ws ops : spells pat ws ops -> spells (ch "@" :: pat) ws ([] :: ops).

(** The words of a row: its maximal runs of letters and digits. *)
Definition alnumb (c : Z) : bool :=
  ((48 <=? c) && (c <=? 57)) || ((65 <=? c) && (c <=? 90)) || ((97 <=? c) && (c <=? 122)).
Fixpoint words (cur pat : text) : list text :=
  match pat with
  | [] => [rev cur]
  | c :: p => if alnumb c then words (c :: cur) p else rev cur :: words [] p
  end.
(** A word that one of the rows of the instruction uses. *)
Definition reserved (o : opcode) (w : text) : Prop :=
  exists i v, In i (op_instrs o) /\ In v (words [] (i_args i)) /\ v <> [] /\ same_word w v.

(** An expression that can stand in an operand slot: it is made of complete pieces without a
    comma, does not begin with a parenthesis, and begins with a word (possibly empty, like in $10)
    that is not the name of a register or condition of this instruction; what follows the word is
    not another word. *)
Definition closes (l : list piece) : Prop := exists t c, pieces_text l = t ++ [c] /\ ~ blank c.
Definition plain_ok (o : opcode) (l : list piece) : Prop :=
  Forall (piece_ok [44] true) l /\ closes l /\
  exists w b r, pieces_text l = w ++ b ++ r /\ Forall name_char w /\ Forall blank b /\ ~ reserved o w /\
    w ++ r <> [] /\ (w = [] -> b = []) /\
    (r = [] \/ exists c t, r = c :: t /\ ~ letter_or_digit c /\ ~ blank c /\ (b = [] -> ~ name_char c) /\ (w = [] -> c <> 40)).
(** A displacement begins with its sign. *)
Definition index_ok (l : list piece) : Prop :=
  Forall (piece_ok [44] true) l /\ closes l /\ exists c t, pieces_text l = c :: t /\ (c = 43 \/ c = 45).
Definition item_ok (o : opcode) (i : item) : Prop :=
  match i with IChar _ => True | IPlain l => plain_ok o l | IIndex l => index_ok l end.

(** What ends the statement: the end of the line or of the text, a comment, a backslash. *)
Definition line_over (rest : text) : Prop := rest = [] \/ exists c t, rest = c :: t /\ line_ender c.

(** The name or number a text begins with. *)
Fixpoint first_word (t : text) : text :=
  match t with
  | c :: t' => if alnumb c || memb c (zs "_[]!?.") then c :: first_word t' else []
  | [] => []
  end.
