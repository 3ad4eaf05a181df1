(** Model of the text scanners of utils.cpp.  A [char *] is the text from that position to
    the terminating NUL; the end of the list is the NUL. *)
From Verif Require Import Base State.

(** utils.cpp:51-56 [is_end_of_code_line]: NUL, newline, CR, ';' or '\'.  The NULL argument
    case is handled by the callers. *)
Definition is_eol (p : text) : bool :=
  match p with
  | [] => true
  | c :: _ => (c =? 10) || (c =? 13) || (c =? 59) || (c =? 92)
  end.

(** utils.cpp:61-74 [skip_to_next_line]. *)
Fixpoint to_line_break (p : text) : text :=
  match p with
  | [] => []
  | c :: p' => if (c =? 10) || (c =? 13) then p else to_line_break p'
  end.
Definition skip_cr (p : text) : text :=
  match p with c :: p' => if c =? 13 then p' else p | [] => [] end.
Definition skip_lf (p : text) : text :=
  match p with c :: p' => if c =? 10 then p' else p | [] => [] end.
Definition skip_to_next_line (p : text) : text := skip_lf (skip_cr (to_line_break p)).

(** utils.cpp:76-79 [is_name_char]: alphanumeric or one of _ [ ] ! ? . *)
Definition is_name_char (c : Z) : bool :=
  isalnum c || memb c [95; 91; 93; 33; 63; 46].

(** utils.cpp:84-92 [skip_to_name_end]. *)
Fixpoint skip_to_name_end (p : text) : text :=
  match p with
  | c :: p' => if is_name_char c then skip_to_name_end p' else p
  | [] => []
  end.

(** utils.cpp:94-109 [skip_to_line_end]: newline, CR, or ';' outside double quotes. *)
Fixpoint skip_line_end (esc quo : bool) (p : text) : text :=
  match p with
  | [] => []
  | c :: p' =>
      if (c =? 10) || (c =? 13) || ((c =? 59) && negb quo) then p
      else if c =? 92 then skip_line_end true quo p'
      else if (c =? 34) && negb esc then skip_line_end esc (negb quo) p'
      else skip_line_end false quo p'
  end.
Definition skip_to_line_end (p : text) : text := skip_line_end false false p.

(** utils.cpp:120-128 [skip_whitespace]: blanks other than newline and CR. *)
Definition is_blank (c : Z) : bool := isspace c && negb (c =? 10) && negb (c =? 13).
Fixpoint skip_ws (p : text) : text :=
  match p with
  | c :: p' => if is_blank c then skip_ws p' else p
  | [] => []
  end.

(** utils.cpp:130-133 [is_arg]: the operand wildcards of instruction patterns,
    one of * & % @ ^ #. *)
Definition is_arg (c : Z) : bool :=
  (c =? 42) || (c =? 38) || (c =? 37) || (c =? 64) || (c =? 94) || (c =? 35).

(** Scanner state shared by [next_expr] and [read_expr_impl] (utils.cpp:137-139, 401-404). *)
Record scan := mkscan { in_string : bool; in_escape : bool; in_quote : Z }.
Definition scan0 : scan := mkscan false false 0.

(** Effect of the quote-tracking part of the switch at utils.cpp:152-171 and 417-449 on the
    scanner state for character [c]; the flag says that the pointer moves back by two. *)
Definition scan_step (c : Z) (z : scan) : scan * bool :=
  if in_escape z then (mkscan (in_string z) false (in_quote z), false)
  else
    let dec q := if q =? 0 then 0 else q - 1 in
    let q := in_quote z in
    if c =? 34 then (mkscan (if q =? 0 then negb (in_string z) else in_string z) false (dec q), false)
    else if c =? 39 then
      let q' := if negb (in_string z) && (q =? 0) then 3 else q in
      (mkscan (in_string z) false (dec q'), false)
    else if c =? 92 then (mkscan (in_string z) true (dec q), false)
    else (mkscan (in_string z) false (dec q), q =? 1).

(** Parentheses are further cases of the same switch in [read_expr_impl]
    (utils.cpp:429-441), so they never cause a step back there. *)
Definition is_paren (c : Z) : bool := (c =? 40) || (c =? 41).

Definition scan_open (z : scan) : bool :=
  negb (in_escape z) && negb (in_string z) && (in_quote z =? 0).

(** utils.cpp:136-204 [next_expr]: both loops.  [p1] and [p2] are ptr-1 and ptr-2.
    After a step back (ptr -= 2; ptr++) the new ptr-2 is not known, but no further step
    back can happen before two more characters are read.
    Fuel [3 * length + 5] is proved sufficient ([next_expr_fuel] in UtilsProofs). *)
Fixpoint next_expr_loop (fuel : nat) (delims : text) (z : scan) (p2 p1 p : text) : option text :=
  match fuel with
  | O => None
  | S f =>
    match p with
    | [] => Some []
    | c :: p' =>
      if (memb c delims || is_eol p) && scan_open z then Some p
      else
        let '(z', back) := scan_step c z in
        if back then next_expr_loop f delims z' p2 p2 p1
        else next_expr_loop f delims z' p1 p p'
    end
  end.
Definition next_expr (p delims : text) : text :=
  let p := skip_ws p in
  if is_eol p || (hd0 p =? 41) then p
  else match next_expr_loop (3 * length p + 5) delims scan0 p p p with
       | Some q => q | None => p
       end.

(** utils.cpp:206-221 [next_code_line]. *)
Definition next_code_line (p : text) : text :=
  let p := next_expr p [92; 59; 13; 10] in
  if hd0 p =? 59 then skip_to_next_line p
  else
    let p := if hd0 p =? 92 then tl p else p in
    skip_lf (skip_cr p).

(** Characters between two pointers into the same text; strndup with a negative (so huge)
    length copies everything. *)
Definition seg (a b : text) : text :=
  if Nat.leb (length b) (length a) then firstn (length a - length b) a else a.

(** utils.cpp:111-118 [skip_to_code_line_end].  [base] is an earlier pointer into the same
    text: the C loop walks back from the next line and may pass [p]; [None] means it walks
    before [base]. *)
Fixpoint drop_eol (l : text) : text :=
  match l with
  | c :: l' => if is_eol l then drop_eol l' else l
  | [] => []
  end.
Definition skip_to_code_line_end (base p : text) : option text :=
  let next := next_code_line p in
  match next with
  | [] => Some []
  | _ =>
    match drop_eol (rev (seg base next)) with
    | [] => None
    | l => Some (skipn (length l) base)
    end
  end.

(** utils.cpp:376-390 [line_has_word]. *)
Definition line_has_word (p word : text) : bool := prefixb_ci word (skip_ws p).

(** C [strncasecmp(a, b, n) == 0]. *)
Fixpoint strncaseq (n : nat) (a b : text) : bool :=
  match n with
  | O => true
  | S n' =>
    match a, b with
    | [], [] => true
    | x :: a', y :: b' => (tolower x =? tolower y) && strncaseq n' a' b'
    | _, _ => false
    end
  end.

(** Result of [read_expr_impl]: return value, new pointer, word, and whether the
    "Expression is too long" fatal error was shown. *)
Record rexpr := mkrx { rx_ret : bool; rx_ptr : text; rx_word : text; rx_long : bool }.

(** utils.cpp:456-460: trailing white space of the word is removed; the word is kept
    reversed. *)
Fixpoint rtrim (w : text) : text :=
  match w with
  | c :: w' => if isspace c then rtrim w' else w
  | [] => []
  end.

(** utils.cpp:415-455: the loop of [read_expr_impl].  [buf] is false when the caller passes
    a NULL word.  [w] is the word so far, reversed. *)
Fixpoint read_expr_loop (fuel : nat) (buf : bool) (delims : text) (z : scan) (level : Z)
    (w p2 p1 p : text) : option rexpr :=
  match fuel with
  | O => None
  | S f =>
    match p with
    | [] => Some (mkrx true [] (rev (rtrim w)) false)
    | c :: p' =>
      if (memb c delims || is_eol p) && scan_open z && (level =? 0)
      then Some (mkrx true p (rev (rtrim w)) false)
      else
        let live := negb (in_escape z) && negb (in_string z) && (in_quote z =? 0) in
        let level' := if live && (c =? 40) then level + 1
                      else if live && (c =? 41) then level - 1 else level in
        if negb (in_escape z) && (c =? 41) && (level' <? 0)
        then Some (mkrx true p (rev (rtrim w)) false)
        else
          let '(z', back0) := scan_step c z in
          let back := back0 && negb (is_paren c) in
          let w' := if back && buf then tl (tl w) else w in
          if buf && (254 <=? zlen w')
          then Some (mkrx true (if back then p2 else p) [48] true)
          else if back
          then read_expr_loop f buf delims z' level' (if buf then hd0 p2 :: w' else w') p2 p2 p1
          else read_expr_loop f buf delims z' level' (if buf then c :: w' else w') p1 p p'
    end
  end.

(** utils.cpp:400-472 [read_expr_impl]. *)
Definition read_expr_gen (buf : bool) (p delims : text) : rexpr :=
  let p := skip_ws p in
  if is_eol p || (hd0 p =? 41) then mkrx false p [] false
  else match read_expr_loop (3 * length p + 5) buf delims scan0 0 [] p p p with
       | Some r => r | None => mkrx false p [] false
       end.

(** utils.cpp:502-536 [escape_string]. *)
Fixpoint escape_body (s : text) : text :=
  match s with
  | [] => []
  | c :: s' => (if c =? 34 then [92; 34] else if c =? 92 then [92; 92] else [c]) ++ escape_body s'
  end.
Definition escape_string (s : text) : text := 34 :: escape_body s ++ [34].

(** utils.cpp:588-596 [fix_filename]: backslashes become slashes. *)
Definition fix_filename (s : text) : text := map (fun c => if c =? 92 then 47 else c) s.

(** utils.cpp:602-618 [is_abs_path]. *)
Definition is_abs_path (s : text) : bool :=
  let fn := skip_ws s in
  (hd0 fn =? 47) || (hd0 fn =? 92) ||
  (Nat.leb 2 (length fn) && (hd1 fn =? 58) && isalpha (hd0 fn)).

(** utils.cpp:627-638 [strup]; the word-parallel [modp_toupper_copy] is modelled and proved
    equal to this in ToupperModel.v/ToupperProofs.v. *)
Definition strup (s : text) : text := map toupper s.

(** utils.cpp:749-760 [change_extension]: cut at the last '.' if any, then append. *)
Fixpoint before_last (c : Z) (s : text) : option text :=
  match s with
  | [] => None
  | x :: s' =>
    match before_last c s' with
    | Some r => Some (x :: r)
    | None => if x =? c then Some [] else None
    end
  end.
Definition change_extension (filename ext : text) : text :=
  (match before_last 46 filename with Some r => r | None => filename end) ++ 46 :: ext.

(** utils.cpp:658-728 [get_file_contents] on the bytes of the file; [None] is NULL.  The
    byte order mark is matched by reading characters until one differs; EOF before that
    returns NULL.  The result is used as a C string, so it ends at the first NUL. *)
Fixpoint until_nul (l : list Z) : text :=
  match l with
  | [] => []
  | c :: l' => if c =? 0 then [] else c :: until_nul l'
  end.
Definition get_file_contents (f : list Z) : option text :=
  match f with
  | [] => None
  | a :: f1 =>
    if a =? 239 then
      match f1 with
      | [] => None
      | b :: f2 =>
        if b =? 187 then
          match f2 with
          | [] => None
          | c :: f3 => if c =? 191 then Some f3 else Some f
          end
        else Some f
      end
    else Some f
  end.
