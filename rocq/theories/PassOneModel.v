(** Model of the instruction and macro part of pass_one.cpp.  The listing is not modelled. *)
From Verif Require Import Base State UtilsModel ErrorsModel StorageModel ParserModel PassTwoModel
  PreopModel.

(** pass_one.h:4-7. *)
Definition SUFFIX_L : Z := 1.
Definition SUFFIX_IL : Z := 2.

(** pass_one.cpp:540-562 [parse_suffix] on the name: the suffix bits, or -1, and the length of
    the part before the suffix.  Characters before the name are taken not to be part of a
    suffix (the C++ may look up to three characters back past the start of a short name). *)
Definition parse_suffix (adl : bool) (name : text) : Z * nat :=
  let n := length name in
  let at_ k := if Nat.leb k n then tolower (nth (n - k) name 0) else 0 in
  let bit (b : bool) v := if b then v else 0 in
  let last1 := at_ 1%nat in
  if (last1 =? 115) || (last1 =? 108) then
    let last2 := at_ 2%nat in
    if last2 =? 46 then
      (Z.lor (bit (last1 =? 108) SUFFIX_L) (bit adl SUFFIX_IL), (n - 2)%nat)
    else if last2 =? 105 then
      let last3 := at_ 3%nat in
      if last3 =? 46 then
        (Z.lor (bit adl SUFFIX_L) (bit (last1 =? 108) SUFFIX_IL), (n - 3)%nat)
      else if (at_ 4%nat =? 46) && ((last3 =? 115) || (last3 =? 108)) then
        (Z.lor (bit (last3 =? 108) SUFFIX_L) (bit (last1 =? 108) SUFFIX_IL), (n - 4)%nat)
      else (-1, n)
    else (-1, n)
  else (-1, n).

(** pass_one.cpp:295-300: the first opcode of that name, with those after it. *)
Fixpoint find_opcode (name_start : text) (len : nat) (l : list opcode) : list opcode :=
  match l with
  | [] => []
  | o :: l' =>
    if strncaseq (Nat.max (length (op_name o)) len) name_start (op_name o) then l
    else find_opcode name_start len l'
  end.

(** pass_one.cpp:590-621: match the text at [p] against the pattern [pat]; [base] is an
    earlier pointer.  The result is what is left of the pattern, the position and the operands
    found, each as (start, end). *)
Fixpoint match_pattern (base pat p : text) (args : list (text * text))
  : M (text * text * list (text * text)) :=
  match pat with
  | [] => ret ([], p, args)
  | c :: pat' =>
    if is_eol p then ret (pat, p, args)
    else
      let next (p : text) (args : list (text * text)) :=
        let p := if negb (isalpha (prevc base p)) || negb (isalpha (hd0 p)) then skip_ws p else p in
        match_pattern base pat' p args in
      if is_arg c then
        if (c =? 64) && is_name_char (hd0 p) then ret (pat, p, args)
        else if Nat.leb 3 (length args) then undef UB_oob
        else
          r <- read_expr p (zs ",") ;;
          let q := rx_ptr r in
          let q := if prevc base q =? 44 then back1 base q else q in
          next q (args ++ [(p, q)])
      else if tolower (hd0 p) =? tolower c then next (tl p) args
      else ret (pat, p, args)
  end.

(** pass_one.cpp:586-633: one candidate: the position reached, and the operands if it
    matches. *)
Definition match_instr (base p : text) (i : instr) : M (text * option (list (text * text))) :=
  let* ' (pat, q, args) := match_pattern base (i_args i) p [] in
  let* ' (pat, args) :=
    (if hd0 pat =? 64 then
       if Nat.leb 3 (length args) then undef UB_oob else ret (tl pat, args ++ [(q, q)])
     else ret (pat, args)) in
  ret (q, match pat with [] => if is_eol q then Some args else None | _ => None end).

Fixpoint match_instrs (base p last : text) (l : list instr)
  : M (text * option (instr * list (text * text))) :=
  match l with
  | [] => ret (last, None)
  | i :: l' =>
    let* ' (q, r) := match_instr base p i in
    match r with
    | Some args => ret (q, Some (i, args))
    | None => match_instrs base p q l'
    end
  end.

(** pass_one.cpp:577-649 [match_opcode_args]; [ops] is the opcode and those after it. *)
Fixpoint match_opcode_args (base p : text) (ops : list opcode)
  : M (text * option (instr * list (text * text))) :=
  match ops with
  | [] => undef UB_null
  | o :: ops' =>
    let* ' (q, r) := match_instrs base p p (op_instrs o) in
    match r with
    | Some _ => ret (q, r)
    | None =>
      match ops' with
      | o' :: _ =>
        if eqbl_ci (op_name o) (op_name o') then match_opcode_args base p ops'
        else set_error SPASM_ERR_INVALID_OPERANDS ;;; ret (q, None)
      | [] => set_error SPASM_ERR_INVALID_OPERANDS ;;; ret (q, None)
      end
    end
  end.

(** pass_one.cpp:693-710: does a pair of parentheses enclose the whole operand? *)
Fixpoint trim_last (last : nat) (a : text) : nat :=
  match last with
  | O => O
  | S l => if Nat.ltb 1 last && isspace (nth last a 0) then trim_last l a else last
  end.
Fixpoint paren_scan (fuel p last : nat) (level : Z) (a : text) : nat :=
  match fuel with
  | O => p
  | S f =>
    if Nat.ltb p last && (0 <? level) then
      let c := nth p a 0 in
      paren_scan f (S p) last (if c =? 40 then level + 1 else if c =? 41 then level - 1 else level) a
    else p
  end.
Definition extra_parens (a : text) : bool :=
  (hd0 a =? 40) &&
  (let last := trim_last (length a - 1) a in Nat.eqb (paren_scan (length a) 1 last 1 a) last).

(** stats_* += n: unsigned. *)
Definition add_stats (size tmin tmax : Z) : M unit :=
  c <- get s_codesize ;; a <- get s_mintime ;; b <- get s_maxtime ;;
  upd (set_codesize (u32 (c + size))) ;;;
  upd (set_mintime (u32 (a + tmin))) ;;;
  upd (set_maxtime (u32 (b + tmax))).

(** pass_one.cpp:18 MAX_BUFFERS. *)
Definition MAX_BUFFERS : Z := 10.
Fixpoint put_nth {A} (i : nat) (v : A) (l : list A) : list A :=
  match i, l with
  | _, [] => []
  | O, _ :: l' => v :: l'
  | S i', x :: l' => x :: put_nth i' v l'
  end.
(** fcreate_bufs[cur_buf]. *)
Definition get_buf : M (Z * option text) :=
  i <- get s_curbuf ;; l <- get s_bufs ;;
  if (0 <=? i) && (i <? MAX_BUFFERS) then ret (i, nth (Z.to_nat i) l None) else undef UB_oob.
Definition put_buf (i : Z) (v : option text) : M unit :=
  l <- get s_bufs ;; upd (set_bufs (put_nth (Z.to_nat i) v l)).
(** [ptr++]; moving past the terminating NUL is undefined. *)
Definition step (p : text) : M text := match p with [] => undef UB_oob | _ :: p' => ret p' end.

Section PassOne.
Variable C : cfg.
Variable R : fns.

(** pass_one.cpp:684-757: the operands in the order of the pattern.  The result is the size
    and the operand left for the end of the instruction. *)
Fixpoint write_operands (pat : text) (args : list (text * text)) (suffix size : Z) (bit : option text)
  : M (Z * option text) :=
  match pat with
  | [] => ret (size, bit)
  | c :: pat' =>
    if is_arg c then
      match args with
      | [] => undef UB_oob
      | (a, e) :: args' =>
        let t := seg a e in
        whenM (extra_parens t) show_warning ;;;
        if c =? 42 then
          if (0 <=? suffix) && truth (Z.land suffix SUFFIX_IL) then
            add_pass_two_expr C R t ARG_NUM_24 (size + 1) 0 ;;;
            write_operands pat' args' suffix (size + 1) bit
          else
            add_pass_two_expr C R t ARG_NUM_16 size 0 ;;; write_operands pat' args' suffix size bit
        else if c =? 38 then
          add_pass_two_expr C R t ARG_NUM_8 size 0 ;;; write_operands pat' args' suffix size bit
        else if c =? 37 then
          add_pass_two_expr C R t ARG_ADDR_OFFSET size 0 ;;; write_operands pat' args' suffix size bit
        else if c =? 64 then
          (match t with
           | [] => add_pass_two_expr C R (zs "0") ARG_IX_IY_OFFSET size 0
           | x :: _ =>
             if (x =? 43) || (x =? 45)
             then add_pass_two_expr C R (48 :: t) ARG_IX_IY_OFFSET size 0
             else set_error SPASM_ERR_INVALID_INDEX_OFFSET
           end) ;;;
          write_operands pat' args' suffix size bit
        else if c =? 94 then write_operands pat' args' suffix size (Some t)
        else add_pass_two_expr C R t ARG_RST size 0 ;;; write_operands pat' args' suffix size bit
      end
    else write_operands pat' args suffix size bit
  end.

(** pass_one.cpp:662-771 [write_instruction_data]; the result is the size. *)
Definition write_instruction_data (i : instr) (args : list (text * text)) (suffix : Z) : M Z :=
  adl <- get s_adl ;;
  let size := if 0 <=? suffix then i_size i + 1 else i_size i in
  whenM (0 <=? suffix) (write_out (64 + suffix * 9)) ;;;
  let suffix := if 0 <=? suffix then suffix
                else if c_ez80 C then (if adl then Z.lor SUFFIX_L SUFFIX_IL else 0) else suffix in
  whenM (c_normal C || c_list C) (write_all (rev (firstn (Z.to_nat (i_size0 i)) (i_data i)))) ;;;
  let* ' (size, bit) := write_operands (i_args i) args suffix size None in
  whenM (i_has_end i && (c_normal C || c_list C))
    (match bit with
     | Some t => add_pass_two_expr C R t ARG_BIT_NUM size (i_end i)
     | None => write_out (i_end i)
     end) ;;;
  ret size.

(** pass_one.cpp:303-330: an instruction; [base] is the text from its name, [p] is after the
    name. *)
Definition handle_opcode (base p : text) (ops : list opcode) (suffix : Z) : M text :=
  let* ' (q, r) := match_opcode_args base (skip_ws p) ops in
  match r with
  | None => ret q
  | Some (i, args) =>
    size <- write_instruction_data i args suffix ;;
    add_pc size ;;;
    adl <- get s_adl ;;
    let penalty := (if 0 <=? suffix then 1 else 0) +
                   (if ((suffix <? 0) && adl) || (0 <? suffix) then i_adl i else 0) in
    add_stats size (i_min i + penalty) (i_max i + penalty) ;;;
    ret q
  end.

(** pass_one.cpp:487-492: the lines of a macro, each handed to run_first_pass_line. *)
Fixpoint macro_lines (fuel : nat) (p : text) : M unit :=
  match fuel with
  | O => nofuel
  | S f =>
    e <- get s_erroc ;;
    match p with
    | [] => ret tt
    | _ =>
      if e then ret tt
      else
        r <- f_line R p ;;
        add_line 1 ;;;
        match r with
        | None => ret tt
        | Some q => macro_lines f (skip_to_next_line q)
        end
    end
  end.

(** pass_one.cpp:429-520: a macro or define used as a statement; [p] is after the name.  A
    macro body whose lines are replaced by their own conditionals can make the loop go on for
    longer than the text, so it takes its fuel from [R]. *)
Definition run_macro (p : text) (r : dref) : M text :=
  n <- start_session ;;
  let* ' (p, args) := parse_args C R p r in
  l <- get s_errs ;;
  (if sess_fatal n l then ret tt
   else
     d <- get_define r ;;
     match d_contents d with
     | None => set_error SPASM_ERR_ARG_USED_WITHOUT_VALUE
     | Some t =>
       if negb (is_eol (skip_ws p)) then
         f_line R (t ++ seg p (skip_to_line_end p)) ;;; ret tt
       else
         file <- get s_file ;; ln <- get s_line ;;
         upd (set_file (d_file d)) ;;; upd (set_line (d_line d)) ;;;
         macro_lines (f_n R) (32 :: t) ;;;
         upd (set_file file) ;;; upd (set_line ln)
     end) ;;;
  remove_arg_set args ;;;
  get_define r ;;;
  replay_session C n true ;;;
  end_session n ;;;
  ret p.

(** pass_one.cpp:365-425: run( ) assembles the text written to the buffer. *)
Definition fcreate_run : M unit :=
  let* ' (_, b) := get_buf in
  match b with
  | None => set_error SPASM_ERR_FCREATE_NOFILE
  | Some t =>
    ln <- get s_line ;; file <- get s_file ;;
    upd (set_file (zs "Built-in fcreate")) ;;;
    n <- start_session ;;
    f_pass R t ;;;
    upd (set_file file) ;;; upd (set_line ln) ;;;
    let* ' (i, b) := get_buf in
    match b with
    | None => undef UB_null
    | Some _ =>
      put_buf i None ;;;
      l <- get s_errs ;;
      whenM (0 <? err_count n l) (replay_session C n false) ;;;
      end_session n
    end
  end.

(** pass_one.cpp:336-425: the four words of the built-in fcreate; [p] starts with the
    parenthesis.  The texts put in a buffer are kept as they were when written. *)
Definition fcreate_buf (p : text) : M text :=
  w <- read_expr (tl p) (zs ")") ;;
  v <- parse_num R (rx_word w) ;;
  match v with
  | Some v => upd (set_curbuf v)
  | None => set_error SPASM_ERR_INVALID_OPERANDS
  end ;;;
  step (rx_ptr w).
Definition fcreate_clr (p : text) : M text :=
  let* ' (i, _) := get_buf in
  put_buf i (Some []) ;;;
  step (tl p).
Definition fcreate_wr (p : text) : M text :=
  let* ' (i, b) := get_buf in
  let b := match b with Some t => t | None => [] end in
  put_buf i (Some b) ;;;
  let* ' (q, t) := f_emit R (tl p) E_FCREATE in
  q <- step q ;;
  put_buf i (Some (b ++ t ++ [10])) ;;;
  ret q.

(** pass_one.cpp:279-530 [handle_opcode_or_macro]. *)
Definition handle_opcode_or_macro (p : text) : M text :=
  let name_end := skip_to_name_end p in
  let name := seg p name_end in
  adl <- get s_adl ;;
  ops <- get s_opcodes ;;
  let '(suffix, len) := if c_ez80 C then parse_suffix adl name else (-1, length name) in
  match find_opcode p len ops with
  | (_ :: _) as l => handle_opcode p name_end l suffix
  | [] =>
    let is_word w := strncaseq (length name) p w && (hd0 name_end =? 40) in
    if is_word (zs "buf") then fcreate_buf name_end
    else if is_word (zs "clr") then fcreate_clr name_end
    else if is_word (zs "wr") then fcreate_wr name_end
    else if is_word (zs "run") then fcreate_run ;;; step (tl name_end)
    else
      d <- search_defines C name true ;;
      match d with
      | Some r => run_macro name_end r
      | None => set_error SPASM_ERR_UNKNOWN_OPCODE ;;; ret name_end
      end
  end.

End PassOne.
