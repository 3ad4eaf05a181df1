(** What may stand in front of a program: definitions, blank lines and comments, files that are
    included, and conditionals that ask for names; and the definitions that count. *)
From Verif Require Import Base State UtilsSpec StorageSpec ParserSpec InstrSpec MatchSpec AsmSpec CondSpec MacroSpec.

(** A line with #include, and perhaps a comment. *)
Record fline := mkfline { f_indent : text; f_paste : paste; f_comment : option text; f_cr : bool }.
Definition remark (c : option text) (cr : bool) : text := match c with Some t => 59 :: t | None => [] end ++ eol_text cr.
Definition fline_text (y : fline) : text := f_indent y ++ 35 :: paste_text (f_paste y) ++ remark (f_comment y) (f_cr y).

(** [FNote]: nothing but blanks and perhaps a comment.  [FFile]: a line with #include, and what is in
    the file.  [FWhen]: a conditional whose first branch counts; [FElse]: one whose #else counts;
    [FLeft]: one of which nothing counts.  The parts left out are any lines and conditionals. *)
Inductive front :=
  | FNil
  | FItem (i : item) (more : front)
  | FNote (b : text) (c : option text) (cr : bool) (more : front)
  | FFile (y : fline) (inside : front) (more : front)
  | FWhen (h : head) (yes : front) (a : alt) (more : front)
  | FElse (h : head) (out : blocks) (m : mark) (no : front) (e : mark) (more : front)
  | FLeft (h : head) (out : blocks) (e : mark) (more : front).
Fixpoint front_text (l : front) : text :=
  match l with
  | FNil => []
  | FItem i more => item_text i ++ front_text more
  | FNote b c cr more => (b ++ remark c cr) ++ front_text more
  | FFile y _ more => fline_text y ++ front_text more
  | FWhen h yes a more => head_text h ++ front_text yes ++ alt_text a ++ front_text more
  | FElse h out m no e more => head_text h ++ blocks_text out ++ mark_text m ++ front_text no ++ mark_text e ++ front_text more
  | FLeft h out e more => head_text h ++ blocks_text out ++ mark_text e ++ front_text more
  end.
(** All there is to read, with a little for every file. *)
Fixpoint front_size (l : front) : nat :=
  match l with
  | FNil => 0
  | FItem i more => length (item_text i) + front_size more
  | FNote b c cr more => length (b ++ remark c cr) + front_size more
  | FFile y inside more => length (fline_text y) + 3 + front_size inside + front_size more
  | FWhen h yes a more => length (head_text h) + front_size yes + length (alt_text a) + front_size more
  | FElse h out m no e more => length (head_text h ++ blocks_text out ++ mark_text m) + front_size no + length (mark_text e) + front_size more
  | FLeft h out e more => length (head_text h ++ blocks_text out ++ mark_text e) + front_size more
  end.

Section Front.
Variable fold : text -> text.
(** The definitions that count, in the order in which they are read; None if one of the conditionals
    does not choose the branch it is said to choose. *)
Definition asks (defined : text -> bool) (x : test) : option bool :=
  match x with Expr _ => None | Defined n => Some (defined n) | Undefined n => Some (negb (defined n)) end.
Definition joined (defined : text -> bool) (x : option (list item)) (f : (text -> bool) -> option (list item)) : option (list item) :=
  match x with
  | Some a => match f (fun n => defined n || header_name fold a n) with Some b => Some (a ++ b) | None => None end
  | None => None
  end.
Definition only (b : bool) (x : option bool) (r : option (list item)) : option (list item) :=
  match x with Some c => if Bool.eqb c b then r else None | None => None end.
Fixpoint counted (defined : text -> bool) (l : front) : option (list item) :=
  match l with
  | FNil => Some []
  | FItem i more => joined defined (Some [i]) (fun d => counted d more)
  | FNote _ _ _ more => counted defined more
  | FFile _ inside more => joined defined (counted defined inside) (fun d => counted d more)
  | FWhen h yes _ more => joined defined (only true (asks defined (h_test h)) (counted defined yes)) (fun d => counted d more)
  | FElse h _ _ no _ more => joined defined (only false (asks defined (h_test h)) (counted defined no)) (fun d => counted d more)
  | FLeft h _ _ more => only false (asks defined (h_test h)) (counted defined more)
  end.

(** Well-formed text.  What is in a branch that counts is read once to find its end, so it must be
    lines and conditionals. *)
Definition any_lines (t : text) : Prop := exists b, blocks_text b = t /\ blocks_ok (P := no_params) fold (fun _ => false) true b.
Definition left_ok (b : blocks) : Prop := blocks_ok (P := no_params) fold (fun _ => false) true b.
Definition hd_ok (h : head) : Prop := head_ok (P := no_params) fold (fun _ => false) true h.
Definition end_ok (a : alt) : Prop := alt_ok (P := no_params) fold (fun _ => false) a.
Variable file : text -> option (list Z).
Variable search : list text.
Definition file_ok (y : fline) (inside : front) : Prop :=
  let z := f_paste y in
  Forall blank (f_indent y) /\ match f_comment y with Some t => no_break t | None => True end /\
  word_is (z_word z) [zs "include"] = true /\ gap_ok (z_gap z) /\ file_name (z_name z) /\ Forall blank (z_after z) /\ zlen (z_after z) <= 50 /\
  exists f, located file search (z_name z) = Some f /\ file f = Some (front_text inside) /\
    Forall (fun c => c <> 0) (front_text inside) /\
    match front_text inside with [] => False | c :: u => c <> 239 /\ (c = 66 -> hd0 u <> 77) end.
Fixpoint front_ok (l : front) : Prop :=
  match l with
  | FNil => True
  | FItem _ more => front_ok more
  | FNote b c _ more => Forall blank b /\ match c with Some t => no_break t | None => True end /\ front_ok more
  | FFile y inside more => file_ok y inside /\ front_ok inside /\ front_ok more
  | FWhen h yes a more => hd_ok h /\ any_lines (front_text yes) /\ front_ok yes /\ end_ok a /\ front_ok more
  | FElse h out m no e more =>
    hd_ok h /\ left_ok out /\ mark_ok [zs "else"] m /\ any_lines (front_text no) /\ front_ok no /\ mark_ok [zs "endif"] e /\ front_ok more
  | FLeft h out e more => hd_ok h /\ left_ok out /\ mark_ok [zs "endif"] e /\ front_ok more
  end.
End Front.
