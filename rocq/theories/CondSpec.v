(** Programs with conditional blocks: their text, and the lines that count. *)
From Verif Require Import Base State UtilsSpec StorageSpec ParserSpec InstrSpec MatchSpec AsmSpec.

(** ** Text *)

(** What a conditional asks: the value of an expression, or whether a name is defined. *)
Inductive test := Expr (w : written) | Defined (n : text) | Undefined (n : text).
Definition test_text (x : test) : text := match x with Expr w => wr w | Defined n | Undefined n => n end.
(** The end of a directive line: blanks and a comment, then the line break. *)
Record ending := mkending { e_blanks : text; e_comment : option text; e_cr : bool }.
Definition eol_text (cr : bool) : text := if cr then [13; 10] else [10].
Definition ending_text (e : ending) : text :=
  e_blanks e ++ match e_comment e with Some t => 59 :: t | None => [] end ++ eol_text (e_cr e).
(** A line with #if, #ifdef, #ifndef or #elif; and one with #else or #endif. *)
Record head := mkhead { h_indent : text; h_word : text; h_gap : text; h_test : test; h_end : ending }.
Definition head_text (h : head) : text :=
  h_indent h ++ 35 :: h_word h ++ h_gap h ++ test_text (h_test h) ++ ending_text (h_end h).
Record mark := mkmark { m_indent : text; m_word : text; m_end : ending }.
Definition mark_text (m : mark) : text := m_indent m ++ 35 :: m_word m ++ ending_text (m_end m).

(** Lines of code, lines that are only there to be left out, and conditionals. *)
Inductive blocks :=
  | Nil
  | Line (l : line) (more : blocks)
  | Other (t : text) (cr : bool) (more : blocks)
  | Cond (h : head) (yes : blocks) (no : alt) (more : blocks)
with alt :=
  | End (m : mark)
  | Else (m : mark) (no : blocks) (e : mark)
  | Elif (h : head) (yes : blocks) (no : alt).
Fixpoint blocks_text (b : blocks) : text :=
  match b with
  | Nil => []
  | Line l more => line_text l ++ blocks_text more
  | Other t cr more => t ++ eol_text cr ++ blocks_text more
  | Cond h yes no more => head_text h ++ blocks_text yes ++ alt_text no ++ blocks_text more
  end
with alt_text (a : alt) : text :=
  match a with
  | End m => mark_text m
  | Else m no e => mark_text m ++ blocks_text no ++ mark_text e
  | Elif h yes no => head_text h ++ blocks_text yes ++ alt_text no
  end.

(** ** The lines that count *)
Section Select.
Context {P : Params} {Ca : Calls}.
Variable wraps : bool.
Variable ez80 : bool.
Variable fold : text -> text.
Variable taken : text -> bool.              (* the names that are defined *)

(** The parameters of macros are defined as well. *)
Definition known_name (n : text) : bool := taken n || isSome (assoc fold params n).
(** Does the test hold, where it stands? *)
Definition holds (now : table) (here : Z) (x : test) : option bool :=
  match x with
  | Expr w => match val wraps fold here now (w_expr w) with Some v => Some (negb (v =? 0)) | None => None end
  | Defined n => Some (known_name n)
  | Undefined n => Some (negb (known_name n))
  end.
(** The lines of the first branch whose test holds, and of the last one if there is none; with
    the symbols and the address after them. *)
Definition and_then (x : option (list line * (table * Z))) (f : table -> Z -> option (list line * (table * Z)))
  : option (list line * (table * Z)) :=
  match x with
  | Some (p, (now, here)) => match f now here with Some (q, r) => Some (p ++ q, r) | None => None end
  | None => None
  end.
Fixpoint chosen (now : table) (here : Z) (b : blocks) : option (list line * (table * Z)) :=
  match b with
  | Nil => Some ([], (now, here))
  | Line l more =>
    match reached wraps ez80 fold taken now here (sections [l]) with
    | Some r => and_then (Some ([l], r)) (fun now here => chosen now here more)
    | None => None
    end
  | Other _ _ _ => None
  | Cond h yes no more =>
    match holds now here (h_test h) with
    | Some true => and_then (chosen now here yes) (fun now here => chosen now here more)
    | Some false => and_then (chosen_alt now here no) (fun now here => chosen now here more)
    | None => None
    end
  end
with chosen_alt (now : table) (here : Z) (a : alt) : option (list line * (table * Z)) :=
  match a with
  | End _ => Some ([], (now, here))
  | Else _ no _ => chosen now here no
  | Elif h yes no =>
    match holds now here (h_test h) with
    | Some true => chosen now here yes
    | Some false => chosen_alt now here no
    | None => None
    end
  end.

(** ** Well-formed text *)

(** A word at the start of a text, in any case. *)
Fixpoint starts (w t : text) : bool :=
  match w, t with
  | [], _ => true
  | c :: w', d :: t' => eqbl_ci [c] [d] && starts w' t'
  | _, [] => false
  end.
Definition cond_words : list text := [zs "#if"; zs "#else"; zs "#elif"; zs "#endif"].
Definition isblank (c : Z) : bool := memb c [32; 9; 11; 12].
(** No statement begins with a word of the conditional directives, or with a closing
    parenthesis.  A statement begins at the start of a line ([fresh]) or after a backslash. *)
Fixpoint calm (fresh : bool) (t : text) : bool :=
  match t with
  | [] => true
  | c :: t' =>
    (if fresh then negb ((c =? 41) || existsb (fun w => starts w t) cond_words) else true) &&
    calm ((c =? 92) || fresh && isblank c) t'
  end.
Definition no_break (t : text) : Prop := Forall (fun c => c <> 10 /\ c <> 13) t.
Definition ending_ok (e : ending) : Prop :=
  Forall blank (e_blanks e) /\ match e_comment e with Some t => no_break t | None => True end.
(** After #else and #endif a comment needs a blank. *)
Definition mark_ok (words : list text) (m : mark) : Prop :=
  Forall blank (m_indent m) /\ word_is (m_word m) words = true /\ ending_ok (m_end m) /\
  (e_comment (m_end m) <> None -> e_blanks (m_end m) <> []) /\ calm false (ending_text (m_end m)) = true.
(** The names that stand for the position in the source are not asked for. *)
Definition test_ok (x : test) : Prop :=
  match x with
  | Expr w => known_ok fold taken w
  | Defined n | Undefined n =>
    name_ok n /\ eqbl (fold n) (zs "__LINE") = false /\ eqbl (fold n) (zs "__FILE") = false
  end.
Definition head_words (first : bool) (x : test) : list text :=
  match x with
  | Expr _ => [if first then zs "if" else zs "elif"]
  | Defined _ => if first then [zs "ifdef"] else []
  | Undefined _ => if first then [zs "ifndef"] else []
  end.
(** The comment after a test does not end with a semicolon or a backslash. *)
Definition head_ok (first : bool) (h : head) : Prop :=
  Forall blank (h_indent h) /\ word_is (h_word h) (head_words first (h_test h)) = true /\ gap_ok (h_gap h) /\
  test_ok (h_test h) /\ no_break (test_text (h_test h)) /\ ending_ok (h_end h) /\
  match e_comment (h_end h) with Some t => exists u c, t = u ++ [c] /\ ~ line_ender c | None => True end /\
  calm true (h_gap h ++ test_text (h_test h) ++ ending_text (h_end h)) = true.
(** Lines [inside] a conditional may be left out, so they must not look like directives. *)
Fixpoint blocks_ok (inside : bool) (b : blocks) : Prop :=
  match b with
  | Nil => True
  | Line l more =>
    line_ok l /\
    (inside = true -> no_break (section_text (l_first l) ++ flat_map (fun x => 92 :: section_text x) (l_more l)) /\
                      calm true (line_text l) = true) /\
    blocks_ok inside more
  | Other t _ more => no_break t /\ calm true t = true /\ blocks_ok inside more
  | Cond h yes no more => head_ok true h /\ blocks_ok true yes /\ alt_ok no /\ blocks_ok inside more
  end
with alt_ok (a : alt) : Prop :=
  match a with
  | End m => mark_ok [zs "endif"] m
  | Else m no e => mark_ok [zs "else"] m /\ blocks_ok true no /\ mark_ok [zs "endif"] e
  | Elif h yes no => head_ok false h /\ blocks_ok true yes /\ alt_ok no
  end.
End Select.
