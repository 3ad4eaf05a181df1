(** Model of directive.cpp.  Console colours and the listing are not modelled. *)
From Verif Require Import Base State UtilsModel ErrorsModel StorageModel ParserModel PassTwoModel
  PreopModel PassOneModel.

(** utils.h:15 EXPR_DELIMS. *)
Definition EXPR_DELIMS : text := zs "+-/*&|<>%^".

(** directive.cpp:21-22. *)
Inductive directive :=
  D_DB | D_DW | D_END | D_ORG | D_FILL | D_ADDINSTR | D_ECHO | D_ERROR | D_LIST | D_EQU | D_SHOW
  | D_OPTION | D_SEEK | D_ASSUME | D_DL.
Definition directives : list (text * directive) :=
  [ (zs "db", D_DB); (zs "dw", D_DW); (zs "end", D_END); (zs "org", D_ORG); (zs "byte", D_DB);
    (zs "word", D_DW); (zs "fill", D_FILL); (zs "block", D_FILL); (zs "addinstr", D_ADDINSTR);
    (zs "echo", D_ECHO); (zs "error", D_ERROR); (zs "list", D_LIST); (zs "nolist", D_LIST);
    (zs "equ", D_EQU); (zs "show", D_SHOW); (zs "option", D_OPTION); (zs "seek", D_SEEK);
    (zs "assume", D_ASSUME); (zs "dl", D_DL); (zs "long", D_DL) ].

(** write_out of the same byte again and again (directive.cpp:134-135). *)
Fixpoint write_n (n : nat) (v : Z) : M unit :=
  match n with O => ret tt | S n' => write_out v ;;; write_n n' v end.

(** directive.cpp:192-204: the wildcards of an added instruction.  [left] is size_left. *)
Definition SIZE_T : Z := 18446744073709551616.
Fixpoint addinstr_args (left : Z) (he : bool) (args : text) : text :=
  match args with
  | [] => []
  | c :: args' =>
    if c =? 42 then
      (if (left - b2z he) mod SIZE_T =? 2 then 42 else 38) :: addinstr_args ((left - 2) mod SIZE_T) he args'
    else c :: addinstr_args left he args'
  end.
(** directive.cpp:170-171: the opcode bytes; [None] for a shift of 32 or more. *)
Definition addinstr_data (n : nat) (v : Z) : option (list Z) :=
  if Nat.leb n 4
  then Some (map (fun j => Z.land (Z.shiftr v (8 * Z.of_nat j)) 255) (rev (seq 0 n)))
  else None.
(** directive.cpp:213-229: before the first opcode of that name, or at the end. *)
Fixpoint insert_opcode (o : opcode) (l : list opcode) : list opcode :=
  match l with
  | [] => [o]
  | x :: l' => if eqbl_ci (op_name o) (op_name x) then o :: l else x :: insert_opcode o l'
  end.

Section Directive.
Variable C : cfg.
Variable R : fns.

Definition etype_size (t : etype) : Z :=
  match t with E_BYTE => 1 | E_WORD => 2 | E_LONG => 3 | _ => 0 end.
Definition etype_arg (t : etype) : arg_type :=
  match t with E_WORD => ARG_NUM_16 | E_LONG => ARG_NUM_24 | _ => ARG_NUM_8 end.
Definition is_data (t : etype) : bool :=
  match t with E_BYTE | E_WORD | E_LONG => true | _ => false end.
Definition is_echo (t : etype) : bool :=
  match t with E_NULL | E_STDOUT | E_FILE => true | _ => false end.

(** directive.cpp:559-565: the characters of a string as data. *)
Fixpoint emit_chars (l : text) : M unit :=
  match l with
  | [] => ret tt
  | c :: l' => whenM (c_normal C || c_list C) (write_out c) ;;; add_datasize 1 ;;; add_pc 1 ;;; emit_chars l'
  end.

(** directive.cpp:726-746; [session] is [None] while the C++ variable is uninitialised. *)
Definition echo_error (t : etype) (session : option Z) : M text :=
  (if is_data t || is_echo t then ret tt else set_error SPASM_ERR_LABEL_NOT_FOUND) ;;;
  match session with
  | None => undef UB_uninit
  | Some n =>
    replay_session C n false ;;; end_session n ;;;
    ret (if is_data t then [] else zs "(error)")
  end.

(** directive.cpp:666-723: the word is a define; [p] is after its name, in [word]. *)
Definition emit_define (t : etype) (n : Z) (r : dref) (p : text) : M text :=
  d <- get_define r ;;
  match d_contents d with
  | None => set_error SPASM_ERR_ARG_USED_WITHOUT_VALUE
  | Some _ => ret tt
  end ;;;
  let* ' (_, args) := parse_args C R p r in
  e <- parse_define R r ;;
  out <- match e with
         | None => ret []
         | Some expr =>
           let* ' (_, q, more) := extract_arg expr true in
           let* ' (second, _, _) := extract_arg q more in
           match second with
           | Some _ => let* ' (_, o) := f_emit R expr t in ret o
           | None =>
             l <- get s_errs ;;
             if sess_has n SPASM_ERR_EXCEEDED_RECURSION_LIMIT l
             then replay_session C n false ;;; ret []
             else
               inner <- start_session ;;
               let* ' (_, o) := f_emit R expr t in
               l <- get s_errs ;;
               end_session inner ;;;
               whenM (sess_fatal inner l) (get_define r ;;; replay_session C n false) ;;;
               ret o
           end
         end ;;
  remove_arg_set args ;;;
  ret out.

(** directive.cpp:541-750: one value of the list.  The result is the text emitted and the
    value of [session] afterwards. *)
Definition emit_word (word : text) (t : etype) (session : option Z) : M (text * option Z) :=
  if hd0 word =? 34 then
    match next_expr word EXPR_DELIMS with
    | _ :: _ => o <- echo_error t session ;; ret (o, session)
    | [] =>
      s <- reduce_string R word ;;
      if is_data t then emit_chars s ;;; ret ([], session) else ret (s, session)
    end
  else
    n <- start_session ;;
    v <- parse_num R word ;;
    l <- get s_errs ;;
    match v with
    | Some v =>
      o <- (if is_data t then
              write_arg C v (etype_arg t) 0 0 ;;;
              add_datasize (etype_size t) ;;; add_pc (etype_size t) ;;; ret []
            else ret (dec v)) ;;
      replay_session C n false ;;; end_session n ;;; ret (o, Some n)
    | None =>
      if negb (sess_fatal n l) && (is_data t || is_echo t) then
        (if is_data t then
           add_pass_two_expr C R word (etype_arg t) 0 0 ;;;
           add_datasize (etype_size t) ;;; add_pc (etype_size t)
         else ret tt) ;;;
        replay_session C n true ;;; end_session n ;;; ret ([], Some n)
      else
        w <- read_expr word (zs "(") ;;
        let name_end := rx_ptr w in
        nx <- read_expr' false name_end (zs ")") ;;
        match rx_ptr nx with
        | _ :: _ => o <- echo_error t (Some n) ;; ret (o, Some n)
        | [] =>
          d <- search_defines C (rx_word w) true ;;
          match d with
          | None => o <- echo_error t (Some n) ;; ret (o, Some n)
          | Some r =>
            o <- emit_define t n r (if prevc word name_end =? 40 then back1 word name_end else name_end) ;;
            end_session n ;;; ret (o, Some n)
          end
        end
    end.

Fixpoint emit_loop (fuel : nat) (t : etype) (session : option Z) (expecting : bool) (p : text)
  : M (text * text) :=
  match fuel with
  | O => nofuel
  | S f =>
    let* ' (w, p, expecting) := extract_arg p expecting in
    match w with
    | None => ret (p, [])
    | Some word =>
      let* ' (o, session) := emit_word word t session in
      let* ' (p, rest) := emit_loop f t session expecting p in
      ret (p, o ++ rest)
    end
  end.

(** directive.cpp:529-765 [parse_emit_string]: the pointer, and the text emitted when the
    target is not program data.  Closing the file of an echo is not modelled. *)
Definition parse_emit_string (p : text) (t : etype) : M (text * text) :=
  lv <- get s_emitlev ;; upd (set_emitlev (lv + 1)) ;;;
  let* ' (p, o) := emit_loop (S (length p)) t None true p in
  lv <- get s_emitlev ;; upd (set_emitlev (lv - 1)) ;;;
  ret (p, o ++ match t with E_STDOUT => if lv =? 1 then [10] else [] | _ => [] end).

(** directive.cpp:73-97 .org. *)
Definition dir_org (p : text) : M text :=
  w <- read_expr p [] ;;
  (if rx_ret w then
     v <- parse_num R (rx_word w) ;;
     match v with
     | Some v => if v <? 0 then set_error SPASM_ERR_INVALID_ADDRESS else upd (set_pc v)
     | None => ret tt
     end
   else ret tt) ;;;
  whenM (negb (rx_ret w) || (match skip_ws (rx_word w) with [] => true | _ => false end))
    (set_error SPASM_ERR_VALUE_EXPECTED) ;;;
  ret (rx_ptr w).

Definition or0 (v : option Z) : Z := match v with Some v => v | None => 0 end.

(** directive.cpp:98-139 .fill and .block. *)
Definition dir_fill (p : text) : M text :=
  w <- read_expr p (zs ",") ;;
  size <- parse_num R (rx_word w) ;;
  let size := or0 size in
  let p := skip_char 44 (skip_ws (rx_ptr w)) in
  w <- read_expr p [] ;;
  v <- (if rx_ret w then v <- parse_num R (rx_word w) ;; ret (or0 v) else ret 0) ;;
  (if size <? 0 then set_error SPASM_ERR_SIZE_MUST_BE_POSITIVE
   else
     whenM ((v <? -128) || (255 <? v)) (set_warning SPASM_WARN_TRUNCATING_8) ;;;
     add_pc size ;;; add_datasize size ;;;
     write_n (Z.to_nat size) (Z.land v 255)) ;;;
  ret (rx_ptr w).

(** directive.cpp:140-241 .addinstr.  An unreadable hexadecimal number is used
    uninitialised. *)
Definition addinstr_fail (p : text) : M text :=
  set_error SPASM_ERR_INVALID_ADDINSTR ;;; ret (skip_to_line_end p).
Definition dir_addinstr (p : text) : M text :=
  let sep := [32; 9] in
  w1 <- read_expr p sep ;;
  if negb (rx_ret w1) then addinstr_fail (rx_ptr w1) else
  w2 <- read_expr (rx_ptr w1) sep ;;
  if negb (rx_ret w2) then addinstr_fail (rx_ptr w2) else
  args <- reduce_string R (rx_word w2) ;;
  w3 <- read_expr (rx_ptr w2) sep ;;
  if negb (rx_ret w3) then addinstr_fail (rx_ptr w3) else
  v <- conv_hex (rx_word w3) [] ;;
  let n := Nat.div (length (rx_word w3)) 2 in
  if Nat.ltb 8 n then addinstr_fail (rx_ptr w3) else
  data <- match n, v with
          | O, _ => ret []
          | S _, None => undef UB_uninit
          | S _, Some v => match addinstr_data n v with Some d => ret d | None => undef UB_overflow end
          end ;;
  w4 <- read_expr (rx_ptr w3) sep ;;
  if negb (rx_ret w4) then addinstr_fail (rx_ptr w4) else
  size <- parse_num R (rx_word w4) ;;
  match size with
  | None => addinstr_fail (rx_ptr w4)
  | Some size =>
    w5 <- read_expr (rx_ptr w4) sep ;;
    w6 <- read_expr (rx_ptr w5) sep ;;
    w7 <- read_expr (rx_ptr w6) sep ;;
    e <- (if rx_ret w7 then
            v <- conv_hex (rx_word w7) [] ;;
            match v with Some v => ret (Some (u8 v)) | None => undef UB_uninit end
          else ret None) ;;
    left <- int_res C (size - Z.of_nat n) ;;
    let he := match e with Some _ => true | None => false end in
    let args := addinstr_args (left mod SIZE_T) he args in
    ops <- get s_opcodes ;;
    upd (set_opcodes (insert_opcode
      (mkopcode (rx_word w1) [mkinstr args data (Z.of_nat n) 0 0 he (or0 e) size 0]) ops)) ;;;
    ret (skip_to_line_end (rx_ptr w7))
  end.

(** directive.cpp:244-286: .echo to a file.  The file can always be opened. *)
Definition dir_echo_file (p : text) : M (option text) :=
  let p := tl p in
  match p with
  | [] => undef UB_oob
  | c :: p' =>
    let app := c =? 62 in
    let p := skip_ws p' in
    if is_eol p then set_error SPASM_ERR_FILENAME_EXPECTED ;;; ret None
    else
      w <- read_expr p [32; 9] ;;
      d <- search_defines C (rx_word w) true ;;
      name <- match d with
              | None => ret (rx_word w)
              | Some r =>
                d <- get_define r ;;
                match d_contents d with Some t => ret (skip_ws t) | None => undef UB_null end
              end ;;
      name <- reduce_string R name ;;
      let path := if is_abs_path name then skip_ws name else c_cwd C ++ 47 :: skip_ws name in
      let* ' (q, o) := f_emit R (rx_ptr w) E_FILE in
      l <- get s_echofiles ;;
      upd (set_echofiles ((fix_filename path, app, o) :: l)) ;;;
      ret (Some q)
  end.

(** directive.cpp:288-325: .echo to the console. *)
Definition dir_echo (p : text) : M text :=
  w <- read_expr p [] ;;
  let expr := rx_word w in
  n <- start_session ;;
  f_emit R expr E_NULL ;;;
  l <- get s_errs ;;
  (if sess_fatal n l then add_pass_two_output R expr OUTPUT_ECHO
   else if 0 <? err_count n l then
     inner <- start_session ;;
     let* ' (_, o) := f_emit R expr E_STDOUT in
     print o ;;;
     end_session inner ;;;
     replay_session C n false
   else
     let* ' (_, o) := f_emit R expr E_FCREATE in
     add_pass_two_output R (escape_string o) OUTPUT_ECHO) ;;;
  end_session n ;;;
  ret (rx_ptr w).

(** directive.cpp:361-376 .equ. *)
Definition dir_equ (p : text) : M text :=
  w <- read_expr p [] ;;
  v <- parse_num R (rx_word w) ;;
  fwd <- get s_fwd ;;
  (match v, fwd with
   | None, true => ret tt
   | _, _ =>
     l <- get s_last_label ;;
     match l with
     | None => set_error SPASM_ERR_EQUATE_MISSING_LABEL
     | Some k => set_label_value k (or0 v)
     end
   end) ;;;
  ret (rx_ptr w).

(** directive.cpp:377-393 .show. *)
Definition dir_show (p : text) : M text :=
  w <- read_expr p [] ;;
  d <- search_defines C (rx_word w) true ;;
  match d with
  | None => add_pass_two_output R (rx_word w) OUTPUT_SHOW
  | Some r => show_define r
  end ;;;
  ret (rx_ptr w).

(** directive.cpp:394-436 .option. *)
Fixpoint option_loop (fuel : nat) (expecting : bool) (p : text) : M text :=
  match fuel with
  | O => nofuel
  | S f =>
    let* ' (w, p, expecting) := extract_arg p expecting in
    match w with
    | None => ret p
    | Some word =>
      nm <- read_expr word (zs "=") ;;
      let e := skip_char 61 (rx_ptr nm) in
      if negb (isalpha (hd0 (rx_word nm))) then set_error SPASM_ERR_INVALID_OPTION ;;; ret p
      else
        let v := if is_eol (skip_ws e) then zs "1" else e in
        d <- add_define C (zs "__" ++ rx_word nm) true ;;
        match d with
        | None => undef UB_null
        | Some (r, _) => set_contents r v ;;; option_loop f expecting p
        end
    end
  end.

(** directive.cpp:437-456 .seek. *)
Definition dir_seek (p : text) : M text :=
  w <- read_expr p [] ;;
  v <- parse_num R (rx_word w) ;;
  let v := or0 v in
  pc <- get s_pc ;; pos <- get s_pos ;;
  let uv := u32 v in
  (if (pc <? uv) && (OUTPUT_BUF_SIZE - pos <? u32 (v - pc)) then show_fatal_error
   else if uv <? pc then
     d <- int_res C (v - wrap32 pc) ;;
     whenM (d + pos <? 0) show_fatal_error
   else ret tt) ;;;
  d <- int_res C (v - wrap32 pc) ;;
  upd (set_pos (pos + d)) ;;;
  upd (set_pc uv) ;;;
  ret (rx_ptr w).

(** directive.cpp:457-479 .assume. *)
Definition dir_assume (p : text) : M text :=
  w <- read_expr p [] ;;
  nm <- read_expr (rx_word w) (zs "=") ;;
  v <- (if hd0 (rx_ptr nm) =? 61 then parse_num R (tl (rx_ptr nm)) else ret (Some 1)) ;;
  match c_ez80 C && eqbl_ci (rx_word nm) (zs "adl"), v with
  | true, Some v => upd (set_adl (truth v))
  | _, _ => set_error SPASM_ERR_INVALID_OPTION
  end ;;;
  ret (rx_ptr w).

(** directive.cpp:20-483 [handle_directive]; [p] is after the dot, [None] is NULL. *)
Definition handle_directive (p : text) : M (option text) :=
  let e := skip_nonspace p in
  let name := seg p e in
  let q := skip_ws e in
  let some (m : M text) := r <- m ;; ret (Some r) in
  let data t := let* ' (r, _) := f_emit R q t in ret (Some r) in
  match (if Nat.ltb (length name) 32 then find_ci name directives else None) with
  | None => some (handle_opcode_or_macro C R (46 :: p))
  | Some D_DB => data E_BYTE
  | Some D_DW => data E_WORD
  | Some D_DL => data E_LONG
  | Some D_ORG => some (dir_org q)
  | Some D_FILL => some (dir_fill q)
  | Some D_ADDINSTR => some (dir_addinstr q)
  | Some D_ECHO => if hd0 q =? 62 then dir_echo_file q else some (dir_echo q)
  | Some D_ERROR =>
    let* ' (r, _) := f_emit R q E_FCREATE in
    set_error SPASM_ERR_CUSTOM ;;; ret (Some r)
  | Some D_EQU => some (dir_equ q)
  | Some D_SHOW => some (dir_show q)
  | Some D_OPTION => some (option_loop (S (length q)) true q)
  | Some D_SEEK => some (dir_seek q)
  | Some D_ASSUME => some (dir_assume q)
  | Some D_END | Some D_LIST => ret (Some q)
  end.

End Directive.
