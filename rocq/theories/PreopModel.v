(** Model of preop.cpp: the preprocessor. *)
From Verif Require Import Base State UtilsModel ErrorsModel StorageModel ParserModel PassTwoModel
  BitmapModel.

(** preop.cpp:32-33. *)
Inductive preop :=
  P_DEFINE | P_INCLUDE | P_IF | P_IFDEF | P_IFNDEF | P_ELSE | P_ELIF | P_ENDIF | P_UNDEF
  | P_COMMENT | P_ENDCOMMENT | P_MACRO | P_ENDMACRO | P_IMPORT | P_DEFCONT | P_REGION.
Definition preops : list (text * preop) :=
  [ (zs "define", P_DEFINE); (zs "include", P_INCLUDE); (zs "if", P_IF); (zs "ifdef", P_IFDEF);
    (zs "ifndef", P_IFNDEF); (zs "else", P_ELSE); (zs "elif", P_ELIF); (zs "endif", P_ENDIF);
    (zs "undef", P_UNDEF); (zs "undefine", P_UNDEF); (zs "comment", P_COMMENT);
    (zs "endcomment", P_ENDCOMMENT); (zs "macro", P_MACRO); (zs "endmacro", P_ENDMACRO);
    (zs "import", P_IMPORT); (zs "defcont", P_DEFCONT); (zs "region", P_REGION);
    (zs "endregion", P_REGION) ].
Fixpoint find_ci {A} (name : text) (l : list (text * A)) : option A :=
  match l with
  | [] => None
  | (n, v) :: l' => if eqbl_ci n name then Some v else find_ci name l'
  end.

(** preop.cpp:38-40. *)
Fixpoint skip_nonspace (p : text) : text :=
  match p with c :: p' => if isspace c then p else skip_nonspace p' | [] => [] end.

(** utils.h:16 MAX_ARGS. *)
Definition MAX_ARGS : nat := 16.

Definition add_line (n : Z) : M unit := ln <- get s_line ;; upd (set_line (ln + n)).

(** preop.cpp:473-478: the text inside the first pair of quotes, if the name starts with one. *)
Fixpoint to_quote (p : text) : text :=
  match p with c :: p' => if c =? 34 then [] else c :: to_quote p' | [] => [] end.
Definition unquote (name : text) : text :=
  let qs := skip_ws name in
  if hd0 qs =? 34 then to_quote (tl qs) else qs.

Section Preop.
Variable C : cfg.
Variable R : fns.

(** preop.cpp:713-767 [skip_until].  [upd_line] is false for a NULL line pointer.  The inner
    loop, lines 726-753, does not advance on a line starting with ')', so it takes its fuel
    from [R].  Its result is [inl] for a match and [inr] for the nesting level reached. *)
Fixpoint skip_inner (fuel : nat) (words : list text) (level : Z) (line line_end : text)
  : M (text + Z) :=
  match fuel with
  | O => nofuel
  | S f =>
    let next (level : Z) :=
      let line := next_code_line line in
      e <- get s_erroc ;;
      if Nat.ltb (length line_end) (length line) && negb e
      then skip_inner f words level line line_end else ret (inr level) in
    if line_has_word line (zs "#IF") then next (level + 1)
    else if (0 <? level) && line_has_word line (zs "#ENDIF") then next (level - 1)
    else if (level =? 0) && existsb (fun w => line_has_word line w) words
    then ret (inl line)
    else next level
  end.
Fixpoint skip_until_loop (fuel : nat) (upd_line : bool) (words : list text) (level ln : Z) (p : text)
  : M text :=
  match fuel with
  | O => nofuel
  | S f =>
    e <- get s_erroc ;;
    match p with
    | _ :: _ =>
      if e then
        set_error SPASM_ERR_UNMATCHED_IF ;;; whenM upd_line (upd (set_line ln)) ;;; ret p
      else
        let line_end := skip_to_next_line p in
        r <- skip_inner (f_n R) words level p line_end ;;
        match r with
        | inl line => whenM upd_line (upd (set_line ln)) ;;; ret line
        | inr level => skip_until_loop f upd_line words level (ln + 1) line_end
        end
    | [] => set_error SPASM_ERR_UNMATCHED_IF ;;; whenM upd_line (upd (set_line ln)) ;;; ret p
    end
  end.
Definition skip_until (upd_line : bool) (words : list text) (p : text) : M text :=
  ln <- get s_line ;; skip_until_loop (S (length p)) upd_line words 0 ln p.

Definition else_words : list text := [zs "#else"; zs "#elif"; zs "#endif"].

(** preop.cpp:649-670 [do_if]. *)
Definition do_if (p : text) (cond : bool) : M text :=
  skip_until false [zs "#endif"] p ;;;
  if cond then ret p
  else
    r <- skip_until true else_words p ;;
    if line_has_word r (zs "#else") then ret (back1 r (next_code_line r))
    else if line_has_word r (zs "#elif") then f_if R (skipn 5 (skip_ws r))
    else ret r.

(** preop.cpp:620-638 [handle_preop_if]. *)
Definition handle_preop_if (p : text) : M text :=
  if is_eol p then set_error SPASM_ERR_EXPRESSION_EXPECTED ;;; ret p
  else
    match skip_to_code_line_end p p with
    | None => undef UB_oob
    | Some e =>
      v <- parse_num R (seg p e) ;;
      do_if e (match v with Some v => truth v | None => false end)
    end.

(** preop.cpp:678-710 [parse_arg_defs]; the names go into the define one by one. *)
Fixpoint arg_defs_loop (fuel : nat) (r : dref) (expecting : bool) (p : text) : M (option text) :=
  match fuel with
  | O => nofuel
  | S f =>
    let* ' (w, p, expecting) := extract_arg p expecting in
    match w with
    | None => ret (Some (if hd0 p =? 41 then tl p else p))
    | Some word =>
      d <- get_define r ;;
      if Nat.eqb (length (d_args d)) MAX_ARGS then show_fatal_error ;;; ret None
      else if existsb (fun a => if c_case C then eqbl word a else eqbl_ci word a) (d_args d)
      then show_fatal_error ;;; ret None
      else
        put_define r (mkdefine (d_name d) (d_line d) (d_file d) (d_contents d) (d_args d ++ [word])) ;;;
        arg_defs_loop f r expecting p
    end
  end.
Definition parse_arg_defs (p : text) (r : dref) : M (option text) :=
  d <- get_define r ;;
  put_define r (mkdefine (d_name d) (d_line d) (d_file d) (d_contents d) []) ;;;
  arg_defs_loop (S (length p)) r false p.

(** preop.cpp:344-376: the arguments of #define .. concat(..) joined. *)
Fixpoint concat_loop (fuel : nat) (expecting : bool) (p : text) : M (text * text) :=
  match fuel with
  | O => nofuel
  | S f =>
    let* ' (w, p, expecting) := extract_arg p expecting in
    match w with
    | None => ret ([], p)
    | Some arg =>
      t <- (if hd0 arg =? 34 then reduce_string R arg
            else
              d <- search_defines C arg true ;;
              match d with
              | Some r =>
                d <- get_define r ;;
                match d_contents d with
                | None => set_error SPASM_ERR_DEFINE_HAS_NO_VALUE ;;; ret []
                | Some t => reduce_string R t
                end
              | None =>
                v <- parse_num R arg ;;
                ret (match v with Some v => dec v | None => [] end)
              end) ;;
      let* ' (rest, p) := concat_loop f expecting p in
      ret (t ++ rest, p)
    end
  end.

Definition skip_char (c : Z) (p : text) : text := if hd0 p =? c then tl p else p.

(** preop.cpp:272-391 [handle_preop_define]. *)
Definition preop_define (p : text) : M (option text) :=
  if is_eol p then set_error SPASM_ERR_NAME_EXPECTED ;;; ret (Some p)
  else
    let name_end := skip_to_name_end p in
    d <- add_define C (seg p name_end) true ;;
    match d with
    | None => ret (Some (skip_to_line_end p))
    | Some (r, redefined) =>
      upd (set_last_define (Some r)) ;;;
      if hd0 name_end =? 40 then
        q <- parse_arg_defs (tl name_end) r ;;
        match q with
        | None => ret None
        | Some q =>
          if is_eol q then show_error ;;; ret (Some q)
          else
            let e := skip_to_line_end q in
            redefine C R r (seg q e) redefined ;;; ret (Some e)
        end
      else if is_eol (skip_ws name_end) then
        set_contents r (zs "1") ;;; ret (Some name_end)
      else
        w <- read_expr name_end (zs "(") ;;
        if eqbl_ci (rx_word w) (zs "eval") then
          x <- read_expr (skip_char 40 (rx_ptr w)) (zs ")") ;;
          v <- f_eval R (rx_word x) ;;
          redefine C R r v redefined ;;;
          ret (Some (skip_char 41 (rx_ptr x)))
        else if eqbl_ci (rx_word w) (zs "concat") then
          let q := skip_char 40 (rx_ptr w) in
          let* ' (t, q) := concat_loop (S (length q)) true q in
          redefine C R r t redefined ;;; ret (Some q)
        else
          let e := skip_to_line_end name_end in
          redefine C R r (seg name_end e) redefined ;;; ret (Some e)
    end.

Definition exists_file (f : text) : bool :=
  match c_files C f with Some _ => true | None => false end.
Fixpoint find_in (dirs : list text) (name : text) : option text :=
  match dirs with
  | [] => None
  | d :: dirs' =>
    let f := fix_filename (d ++ 47 :: name) in
    if exists_file f then Some f else find_in dirs' name
  end.
(** preop.cpp:399-437 [full_path]. *)
Definition full_path (name : text) : M (option text) :=
  dirs <- get s_incdirs ;;
  ret (if is_abs_path name && exists_file name then Some name else find_in dirs name).

(** preop.cpp:444-557 [handle_preop_include]. *)
Definition preop_include (p : text) : M text :=
  if is_eol p then show_error ;;; ret p
  else
    w <- read_expr p [] ;;
    let p := rx_ptr w in
    if existsb (fun c => (c =? 10) || (c =? 13) || (c =? 59)) (rx_word w) then show_error ;;; ret p
    else
      path <- full_path (unquote (fix_filename (rx_word w))) ;;
      match (match path with Some f => c_files C f | None => None end), path with
      | Some bytes, Some f =>
        if is_bitmap bytes then handle_bitmap C R bytes ;;; ret p
        else
          match get_file_contents bytes with
          | None => show_error ;;; ret p
          | Some t =>
            l <- get s_infiles ;; upd (set_infiles (f :: l)) ;;;
            old_file <- get s_file ;; old_line <- get s_line ;;
            upd (set_file f) ;;;
            f_pass R (until_nul t) ;;;
            upd (set_file old_file) ;;; upd (set_line old_line) ;;;
            ret p
          end
      | _, _ => set_error SPASM_ERR_FILE_NOT_FOUND ;;; show_error ;;; ret p
      end.

(** preop.cpp:566-611 [handle_preop_import].  A file that is not found is opened through a
    null pointer. *)
Definition preop_import (p : text) : M text :=
  if is_eol p then show_error ;;; ret p
  else
    w <- read_expr p [] ;;
    path <- full_path (unquote (fix_filename (rx_word w))) ;;
    match path with
    | None => undef UB_null
    | Some f =>
      match c_files C f with
      | None => set_error SPASM_ERR_FILE_NOT_FOUND
      | Some bytes => emit_all bytes
      end ;;;
      ret (rx_ptr w)
    end.

(** preop.cpp:93-138: #ifdef and #ifndef. *)
Definition preop_ifdef (wanted : bool) (p : text) : M text :=
  if is_eol p then set_error SPASM_ERR_EXPRESSION_EXPECTED ;;; ret p
  else
    lv <- get s_iflevel ;; upd (set_iflevel (lv + 1)) ;;;
    let e := skip_to_name_end p in
    d <- search_defines C (seg p e) true ;;
    have <- match d with
            | None => ret false
            | Some r => d <- get_define r ;;
                        ret (match d_contents d with Some _ => true | None => false end)
            end ;;
    do_if e (Bool.eqb have wanted).

(** preop.cpp:188-232: #macro. *)
Definition preop_macro (p : text) : M (option text) :=
  if is_eol p then set_error SPASM_ERR_NAME_EXPECTED ;;; ret (Some p)
  else
    let name_end := skip_to_name_end p in
    m <- add_define C (seg p name_end) true ;;
    match m with
    | None => ret None
    | Some (r, _) =>
      let name_end := skip_ws name_end in
      q <- (if hd0 name_end =? 40 then parse_arg_defs (tl name_end) r else ret (Some name_end)) ;;
      match q with
      | None => ret None
      | Some q =>
        let q := skip_to_next_line q in
        add_line 1 ;;;
        d <- get_define r ;;
        put_define r (mkdefine (d_name d) (d_line d + 1) (d_file d) (d_contents d) (d_args d)) ;;;
        e <- skip_until true [zs "#endmacro"] q ;;
        set_contents r (seg q e) ;;;
        ret (Some (skip_to_line_end e))
      end
    end.

(** preop.cpp:242-259: #defcont.  [base] is an earlier pointer. *)
Definition preop_defcont (base p : text) : M text :=
  l <- get s_last_define ;;
  match l with
  | None => set_error SPASM_ERR_NO_PREVIOUS_DEFINE ;;; ret p
  | Some r =>
    let q := skip_to_next_line p in
    d <- get_define r ;;
    redefine C R r (d_name d ++ 32 :: seg p q) true ;;;
    ret (back1 base q)
  end.

(** Skipping with the problems raised thrown away (preop.cpp:88-90, 147-149, 183-185). *)
Definition skip_quiet (words : list text) (p : text) : M text :=
  n <- start_session ;;
  q <- skip_until true words p ;;
  end_session n ;;; ret q.

(** preop.cpp:31-263 [handle_preop]; [None] is NULL. *)
Definition handle_preop (p0 : text) : M (option text) :=
  let e := skip_nonspace p0 in
  let p := skip_ws e in
  let some (m : M text) := q <- m ;; ret (Some q) in
  match find_ci (seg p0 e) preops with
  | None => set_error SPASM_ERR_UNKNOWN_PREOP ;;; ret (Some p)
  | Some P_DEFINE => preop_define p
  | Some P_INCLUDE => some (preop_include p)
  | Some P_IF => lv <- get s_iflevel ;; upd (set_iflevel (lv + 1)) ;;; some (handle_preop_if p)
  | Some P_ELIF =>
    lv <- get s_iflevel ;;
    whenM (lv =? 0) (set_error SPASM_ERR_ELIF_WITHOUT_IF) ;;;
    some (skip_quiet [zs "#endif"] p)
  | Some P_IFDEF => some (preop_ifdef true p)
  | Some P_IFNDEF => some (preop_ifdef false p)
  | Some P_ELSE =>
    lv <- get s_iflevel ;;
    if lv =? 0 then set_error SPASM_ERR_STRAY_PREOP ;;; ret (Some p)
    else some (skip_quiet else_words p)
  | Some P_ENDIF =>
    lv <- get s_iflevel ;;
    (if 0 <? lv then upd (set_iflevel (lv - 1)) else set_error SPASM_ERR_STRAY_PREOP) ;;;
    ret (Some p)
  | Some P_UNDEF =>
    if is_eol p then set_error SPASM_ERR_NAME_EXPECTED ;;; ret (Some p)
    else
      let e := skip_to_name_end p in
      remove_define C (seg p e) ;;; ret (Some e)
  | Some P_COMMENT => some (skip_quiet [zs "#endcomment"] p)
  | Some P_MACRO => preop_macro p
  | Some P_IMPORT => some (preop_import p)
  | Some P_DEFCONT => some (preop_defcont p0 p)
  | Some P_ENDCOMMENT | Some P_ENDMACRO | Some P_REGION => ret (Some p)
  end.

End Preop.
