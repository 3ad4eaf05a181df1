(** Model of parser.cpp, and of the expression functions of utils.cpp that it calls.
    The C++ functions call each other across files without bound; here each body takes the
    functions it calls in a record [fns], and Knot.v ties the record with fuel.  Loops that
    always advance through their text use the length of the text as fuel.

    Text is a value here, so a C++ use of a define's contents after that define was freed or
    redefined by its own evaluation is not seen, except where [get_define] finds the define
    gone. *)
From Verif Require Import Base State UtilsModel ErrorsModel StorageModel.

(** ES_TYPE, directive.h, with the kinds of echo_target of directive.cpp:529: none, the
    console, a file, or a buffer. *)
Inductive etype := E_NULL | E_STDOUT | E_FILE | E_FCREATE | E_BYTE | E_WORD | E_LONG.

Record fns := mkfns {
  f_n : nat;                                            (* fuel for loops that may not advance *)
  f_full : text -> Z -> M (option (text * Z));          (* parse_num_full *)
  f_eval : text -> M text;                              (* eval *)
  f_expand : Z -> text -> bool -> M text;               (* expand_expr_full *)
  f_preop : text -> M (option text);                    (* handle_preop *)
  f_if : text -> M text;                                (* handle_preop_if *)
  f_line : text -> M (option text);                     (* run_first_pass_line *)
  f_pass : text -> M unit;                              (* run_first_pass *)
  f_emit : text -> etype -> M (text * text)             (* parse_emit_string: pointer, text emitted *)
}.
Definition fns0 : fns :=
  mkfns 0 (fun _ _ => nofuel) (fun _ => nofuel) (fun _ _ _ => nofuel) (fun _ => nofuel)
        (fun _ => nofuel) (fun _ => nofuel) (fun _ => nofuel) (fun _ _ => nofuel).

(** Pointers into the same text as [base]: the previous character, and one step back. *)
Definition prevc (base p : text) : Z :=
  if Nat.ltb (length p) (length base) then nth (length base - length p - 1) base 0 else 0.
Definition back1 (base p : text) : text := skipn (length base - length p - 1) base.

(** C [strtoll]: value clamped to long long, and the end pointer. *)
Fixpoint drop_space (p : text) : text :=
  match p with c :: p' => if isspace c then drop_space p' else p | [] => [] end.
Definition digit_val (c : Z) : Z :=
  if isdigit c then c - 48
  else if isupper c then c - 55
  else if islower c then c - 87
  else 99.
Fixpoint take_digits (base acc : Z) (any : bool) (p : text) : Z * bool * text :=
  match p with
  | c :: p' =>
      if digit_val c <? base then take_digits base (acc * base + digit_val c) true p'
      else (acc, any, p)
  | [] => (acc, any, [])
  end.
Definition LLONG_MAX : Z := 9223372036854775807.
Definition LLONG_MIN : Z := -9223372036854775808.
Definition strtoll (base : Z) (s : text) : Z * text :=
  let p := drop_space s in
  let neg := hd0 p =? 45 in
  let p := if (hd0 p =? 45) || (hd0 p =? 43) then tl p else p in
  let p := if (base =? 16) && (hd0 p =? 48) && (tolower (hd1 p) =? 120) && isxdigit (hd0 (tl (tl p)))
           then tl (tl p) else p in
  match take_digits base 0 false p with
  | (_, false, _) => (0, s)
  | (v, true, q) =>
      let v := if neg then - v else v in
      ((if v <? LLONG_MIN then LLONG_MIN else if LLONG_MAX <? v then LLONG_MAX else v), q)
  end.

(** parser.cpp:26-53. *)
Inductive mathop :=
  M_ADD | M_SUB | M_MUL | M_DIV | M_MOD | M_XOR | M_LAND | M_LOR | M_LSHIFT | M_RSHIFT
  | M_AND | M_OR | M_LTE | M_GTE | M_LT | M_GT | M_EQUALS | M_NOTEQUALS | M_NONE.

(** parser.cpp:55-85 [MathDefs]. *)
Definition math_defs : list (mathop * text) :=
  [ (M_LSHIFT, zs "<<"); (M_RSHIFT, zs ">>"); (M_AND, zs "&&"); (M_OR, zs "||");
    (M_LTE, zs "<="); (M_GTE, zs ">="); (M_LT, zs "<"); (M_GT, zs ">");
    (M_EQUALS, zs "=="); (M_EQUALS, zs "="); (M_NOTEQUALS, zs "!=");
    (M_ADD, zs "+"); (M_SUB, zs "-"); (M_MUL, zs "*"); (M_DIV, zs "/"); (M_MOD, zs "%");
    (M_XOR, zs "^"); (M_LAND, zs "&"); (M_LOR, zs "|") ].

(** parser.cpp:605-614: the first operator that is a prefix of the text. *)
Fixpoint match_op (defs : list (mathop * text)) (p : text) : option (mathop * text) :=
  match defs with
  | [] => None
  | (o, d) :: defs' => if prefixb d p then Some (o, skipn (length d) p) else match_op defs' p
  end.

(** The result of a signed operation in [int]. *)
Definition int_res (C : cfg) (z : Z) : M Z :=
  if in_int z then ret z else if c_wrap C then ret (wrap32 z) else undef UB_overflow.
Definition shift_ok (n : Z) : bool := (0 <=? n) && (n <? 32).
Definition b2z (b : bool) : Z := if b then 1 else 0.
Definition truth (z : Z) : bool := negb (z =? 0).

(** C [/] and [%] are undefined for these operands. *)
Definition div_undefined (total n : Z) : bool := (n =? 0) || ((total =? INT_MIN) && (n =? -1)).

(** parser.cpp:565-591; [/] and [%] truncate; the guards of lines 553-562 come first. *)
Definition apply_op (C : cfg) (o : mathop) (total n : Z) : M Z :=
  match o with
  | M_NONE => ret n
  | M_ADD => int_res C (total + n)
  | M_SUB => int_res C (total - n)
  | M_MUL => int_res C (total * n)
  | M_DIV => if div_undefined total n then undef UB_divide else ret (Z.quot total n)
  | M_MOD => if div_undefined total n then undef UB_divide else ret (Z.rem total n)
  | M_XOR => ret (Z.lxor total n)
  | M_LAND => ret (Z.land total n)
  | M_LOR => ret (Z.lor total n)
  | M_LSHIFT => if shift_ok n then ret (wrap32 (Z.shiftl total n)) else undef UB_overflow
  | M_RSHIFT => if shift_ok n then ret (Z.shiftr total n) else undef UB_overflow
  | M_AND => ret (b2z (truth total && truth n))
  | M_OR => ret (b2z (truth total || truth n))
  | M_LT => ret (b2z (total <? n))
  | M_GT => ret (b2z (n <? total))
  | M_LTE => ret (b2z (total <=? n))
  | M_GTE => ret (b2z (n <=? total))
  | M_EQUALS => ret (b2z (total =? n))
  | M_NOTEQUALS => ret (b2z (negb (total =? n)))
  end.

Definition is_divmod (o : mathop) : bool :=
  match o with M_DIV | M_MOD => true | _ => false end.

(** parser.cpp:6. *)
Definition RECURSION_LIMIT : Z := 20.

(** parser.cpp:657-678 [conv_generic]: [e] is the end pointer; [None] is false. *)
Definition conv_generic (base code : Z) (s e : text) : M (option Z) :=
  let '(v, ep) := strtoll base s in
  if Nat.ltb (length e) (length ep) then set_error code ;;; ret None
  else if (v <? INT_MIN) || (UINT_MAX <? v) then set_error SPASM_ERR_INTEGER_OVERFLOW ;;; ret None
  else ret (Some (wrap32 v)).
(** parser.cpp:680-690. *)
Definition conv_hex := conv_generic 16 SPASM_ERR_INVALID_HEX_DIGIT.
Definition conv_dec := conv_generic 10 SPASM_ERR_INVALID_DECIMAL_DIGIT.
Definition conv_bin := conv_generic 2 SPASM_ERR_INVALID_BINARY_DIGIT.

Fixpoint skip_alnum (p : text) : text :=
  match p with c :: p' => if isalnum c then skip_alnum p' else p | [] => [] end.
(** parser.cpp:434: stop on the last alphanumeric character of a run. *)
Fixpoint last_alnum (p : text) : text :=
  match p with
  | c :: ((d :: _) as p') => if isalnum d then last_alnum p' else p
  | _ => p
  end.
(** parser.cpp:198-202 and 227-230. *)
Fixpoint count_plus (p : text) (n : Z) : text * Z :=
  match p with c :: p' => if c =? 43 then count_plus p' (n + 1) else (p, n) | [] => ([], n) end.
Fixpoint count_minus (p : text) (n : Z) : text * Z :=
  match p with
  | c :: p' => if (c =? 45) && (0 <? n) then count_minus p' (n - 1) else (p, n)
  | [] => ([], n)
  end.

(** rand() of the C library. *)
Definition next_rand (C : cfg) : M Z :=
  n <- get s_randn ;; upd (set_randn (S n)) ;;; ret (c_rand C n).

(** parser.cpp:279-290: the escapes of a quoted character. *)
Definition char_escape (C : cfg) (c : Z) : M Z :=
  let u := toupper c in
  if u =? 78 then ret 10
  else if u =? 92 then ret 92
  else if u =? 48 then ret 0
  else if u =? 82 then ret 13
  else if u =? 84 then ret 9
  else if u =? 39 then ret 39
  else if u =? 35 then (r <- next_rand C ;; ret (Z.land r 255))
  else ret (schar c).

(** utils.cpp:400-472 [read_expr_impl] as a command: [buf] is false for a NULL word. *)
Definition read_expr' (buf : bool) (p delims : text) : M rexpr :=
  let r := read_expr_gen buf p delims in
  (if rx_long r then show_fatal_error else ret tt) ;;; ret r.
Definition read_expr := read_expr' true.

(** utils.cpp:475-500 [extract_arg_string]: [expecting] is context->fExpectingMore. *)
Definition extract_arg (p : text) (expecting : bool) : M (option text * text * bool) :=
  r <- read_expr p [44] ;;
  if rx_ret r then
    if hd0 (rx_ptr r) =? 44 then ret (Some (rx_word r), tl (rx_ptr r), true)
    else ret (Some (rx_word r), rx_ptr r, false)
  else
    (if expecting then set_error SPASM_ERR_VALUE_EXPECTED else ret tt) ;;;
    ret (None, rx_ptr r, expecting).

Section Parser.
Variable C : cfg.
Variable R : fns.

(** parser.cpp:112-126 [parse_num]: [None] is false, with the value set to 0. *)
Definition parse_num (expr : text) : M (option Z) :=
  upd (set_depth 0) ;;;
  r <- f_full R expr 0 ;;
  ret (match r with Some (_, v) => Some v | None => None end).

(** parser.cpp:133-146 [parse_f]. *)
Definition parse_f (expr : text) : M Z :=
  n <- start_session ;;
  r <- parse_num expr ;;
  l <- get s_errs ;;
  let v := match r with Some v => v | None => -1 end in
  let v := if sess_fatal n l then -1 else v in
  end_session n ;;; ret v.

(** parser.cpp:156-180 [parse_define]: [base] is the contents of the define. *)
Fixpoint parse_define_loop (fuel : nat) (base p : text) : M (option text) :=
  match fuel with
  | O => nofuel
  | S f =>
    e <- get s_erroc ;;
    match p with
    | [] => ret None
    | _ =>
      if e then ret None
      else
        let next := p in
        let p := skip_ws p in
        let step (next : text) :=
          let q := next_code_line next in
          ln <- get s_line ;; upd (set_line (ln + 1)) ;;;
          parse_define_loop f base q in
        if hd0 p =? 35 then
          nx <- f_preop R (tl p) ;;
          match nx with
          | None => undef UB_null
          | Some nx => step nx
          end
        else if is_eol p then step next
        else match skip_to_code_line_end base p with
             | None => undef UB_oob
             | Some e => ret (Some (seg p e))
             end
    end
  end.
Definition parse_define (r : dref) : M (option text) :=
  d <- get_define r ;;
  match d_contents d with
  | None => ret None
  | Some t => parse_define_loop (S (length t)) t t
  end.

(** utils.cpp:542-581 [reduce_string].  A backslash at the very end makes the C++ loop
    run past the terminating NUL. *)
Fixpoint reduce_body (s : text) (quotes : Z) : M (text * Z) :=
  match s with
  | [] => ret ([], quotes)
  | c :: s' =>
    if c =? 92 then
      match s' with
      | [] => undef UB_oob
      | x :: s'' =>
        v <- parse_num [39; 92; x; 39] ;;
        let* ' (t, q) := reduce_body s'' quotes in
        ret (u8 (match v with Some v => v | None => 0 end) :: t, q)
      end
    else
      let* ' (t, q) := reduce_body s' (if c =? 34 then quotes + 1 else quotes) in
      ret (c :: t, q)
  end.
Definition reduce_string (s : text) : M text :=
  let* ' (t, q) := reduce_body s 0 in
  let t := until_nul t in
  ret (if (2 <=? q) && (hd0 t =? 34) && (last t 0 =? 34) then removelast (tl t) else t).

(** parser.cpp:347-377: [getc(]; [p] is after the parenthesis.  [None] as value means
    that [*value] is not written. *)
Definition parse_getc (p : text) : M (option (text * option Z)) :=
  r1 <- read_expr p [44] ;;
  d <- search_defines C (rx_word r1) true ;;
  fname <- match d with
           | None => ret (rx_word r1)
           | Some r =>
             d <- get_define r ;;
             match d_contents d with
             | None => undef UB_null
             | Some t => if 256 <=? zlen t then undef UB_oob else ret t
             end
           end ;;
  r2 <- read_expr (rx_ptr r1) [44] ;;
  i <- parse_f (rx_word r2) ;;
  fname <- reduce_string fname ;;
  v <- match c_files C (fix_filename fname) with
       | Some bytes =>
         ret (Some (if i <? 0 then match bytes with b :: _ => b | [] => -1 end
                    else nth (Z.to_nat i) bytes (-1)))
       | None => set_error SPASM_ERR_FILE_NOT_FOUND ;;; ret None
       end ;;
  let p := rx_ptr r2 in
  ret (Some (if hd0 p =? 41 then tl p else p, v)).

(** utils.cpp:264-315 [parse_args]: the pointer after the arguments, and the set added. *)
Fixpoint parse_args_loop (fuel : nat) (r : dref) (id : nat) (num : nat) (expecting : bool) (p : text)
  : M (text * nat) :=
  match fuel with
  | O => nofuel
  | S f =>
    let* ' (w, p, expecting) := extract_arg p expecting in
    match w with
    | None => ret (p, num)
    | Some word =>
      d <- get_define r ;;
      match nth_error (d_args d) num with
      | None => set_warning SPASM_WARN_MACRO_TOO_MANY_ARGS ;;; ret (p, num)
      | Some name =>
        v <- (if hd0 name =? 64 then ret word else f_eval R word) ;;
        add_arg C name (Some v) id ;;;
        parse_args_loop f r id (S num) expecting p
      end
    end
  end.
Fixpoint fill_args (names : list text) (id : nat) : M unit :=
  match names with
  | [] => ret tt
  | n :: names' => add_arg C n None id ;;; fill_args names' id
  end.
Definition parse_args (p : text) (r : dref) : M (text * option nat) :=
  d <- get_define r ;;
  if negb (hd0 p =? 40) && Nat.eqb (length (d_args d)) 0 then ret (p, None)
  else
    id <- add_arg_set ;;
    let* ' (p, num) :=
      (if hd0 p =? 40 then
         let p := skip_ws (tl p) in
         if negb (hd0 p =? 41) && negb (is_eol p)
         then parse_args_loop (S (length p)) r id 0 true p
         else ret (p, 0%nat)
       else ret (p, 0%nat)) in
    d <- get_define r ;;
    fill_args (skipn num (d_args d)) id ;;;
    ret (if hd0 p =? 41 then tl p else p, Some id).

(** parser.cpp:380-422: the value of a define or macro; [p] is after the name. *)
Definition parse_define_value (p : text) (r : dref) : M (option (text * option Z)) :=
  let* ' (p, args) := parse_args p r in
  old <- get s_line ;;
  d <- get_define r ;;
  upd (set_line (d_line d)) ;;;
  n <- start_session ;;
  contents <- parse_define r ;;
  v <- match contents with
       | None => set_error SPASM_ERR_ARG_USED_WITHOUT_VALUE ;;; ret None
       | Some t =>
         r <- f_full R t 0 ;;
         ret (match r with Some (_, v) => Some v | None => None end)
       end ;;
  upd (set_line old) ;;;
  l <- get s_errs ;;
  let bad := 0 <? err_count n l in
  (if bad then replay_session C n false else ret tt) ;;;
  end_session n ;;;
  remove_arg_set args ;;;
  ret (if bad then None else Some (p, v)).

(** parser.cpp:303-429: a name; [p] starts with it. *)
Definition parse_name (p : text) : M (option (text * option Z)) :=
  let q := skip_to_name_end p in
  let name := seg p q in
  ld <- search_local_defines C name ;;
  lab <- match ld with Some _ => ret None | None => search_labels C name end ;;
  def <- match ld, lab with
         | None, None => search_defines C name true
         | _, _ => ret ld
         end ;;
  if eqbl name (zs "_") then
    cur <- get_curr_reusable ;;
    total <- get s_total_reus ;;
    if cur + 1 <? total then
      v <- search_reusables (cur + 1) ;; ret (Some (q, Some (wrap32 v)))
    else set_error SPASM_ERR_LOCAL_LABEL_FORWARD_REF ;;; ret None
  else
    match lab with
    | Some l => ret (Some (q, Some (l_value l)))
    | None =>
      if eqbl_ci name (zs "eval") && (hd0 q =? 40) then
        r <- f_full R q 0 ;;
        ret (match r with Some (q, v) => Some (q, Some v) | None => None end)
      else if eqbl_ci name (zs "getc") && (hd0 q =? 40) then parse_getc (tl q)
      else match def with
           | Some r => parse_define_value q r
           | None =>
             set_error SPASM_ERR_LABEL_NOT_FOUND ;;; upd (set_fwd true) ;;; ret None
           end
    end.

Definition num_result (q : text) (v : option Z) : option (text * option Z) :=
  match v with Some v => Some (q, Some v) | None => None end.

(** parser.cpp:189-457 [parse_single_num]: [None] is NULL; a value of [None] means that
    [*value] was left alone. *)
Definition parse_single (p : text) : M (option (text * option Z)) :=
  let c := hd0 p in
  if c =? 43 then
    cur <- get_curr_reusable ;;
    let '(q, i) := count_plus p cur in
    if negb (hd0 q =? 95) then set_error SPASM_ERR_LOCAL_LABEL_SYNTAX ;;; ret None
    else
      total <- get s_total_reus ;;
      if total <=? i then set_error SPASM_ERR_LOCAL_LABEL_FORWARD_REF ;;; ret None
      else v <- search_reusables i ;; ret (Some (tl q, Some (wrap32 v)))
  else if c =? 45 then
    cur <- get_curr_reusable ;;
    let '(q, i) := count_minus (tl p) cur in
    if negb (hd0 q =? 95) || (i <? 0) then set_error SPASM_ERR_LOCAL_LABEL_SYNTAX ;;; ret None
    else v <- search_reusables i ;; ret (Some (tl q, Some (wrap32 v)))
  else if c =? 36 then
    let s := tl p in
    if isxdigit (hd0 s) then
      let q := skip_alnum s in
      v <- conv_hex s q ;; ret (num_result q v)
    else pc <- get s_pc ;; ret (Some (s, Some (wrap32 pc)))
  else if c =? 37 then
    let s := tl p in
    let q := skip_alnum s in
    v <- conv_bin s q ;; ret (num_result q v)
  else if c =? 39 then
    match tl p with
    | [] => undef UB_oob
    | c1 :: p1 =>
      let* ' (v, e) :=
        (if c1 =? 92 then
           match p1 with
           | [] => undef UB_oob
           | c2 :: p2 => v <- char_escape C c2 ;; ret (v, p2)
           end
         else ret (schar c1, p1)) in
      if hd0 e =? 39 then ret (Some (tl e, Some v))
      else show_warning ;;; ret (Some (e, Some v))
    end
  else if isalpha c || (c =? 95) then parse_name p
  else if isdigit c then
    let e := last_alnum p in
    let u := toupper (hd0 e) in
    v <- (if u =? 72 then conv_hex p e
          else if u =? 66 then conv_bin p e
          else if u =? 68 then conv_dec p e
          else conv_dec p (tl e)) ;;
    ret (num_result (tl e) v)
  else set_error SPASM_ERR_BAD_VALUE_PREFIX ;;; ret None.

Inductive opres :=
  | OpEnd (p : text)                    (* end of the expression *)
  | OpClose (p : text)                  (* closing parenthesis of this level *)
  | OpNext (o : mathop) (p : text)
  | OpBad.

(** parser.cpp:593-646: the next operator. *)
Fixpoint get_op (fuel : nat) (depth : Z) (p : text) : M opres :=
  match fuel with
  | O => nofuel
  | S f =>
    let p := skip_ws p in
    if is_eol p then
      (if 0 <? depth then show_warning else ret tt) ;;; ret (OpEnd p)
    else
      match match_op math_defs p with
      | Some (o, q) =>
        let q := skip_ws q in
        match q with
        | [] => set_error SPASM_ERR_VALUE_EXPECTED ;;; ret OpBad
        | _ => ret (OpNext o q)
        end
      | None =>
        if hd0 p =? 41 then
          if 0 <? depth then ret (OpClose (skip_ws (tl p)))
          else show_warning ;;; get_op f depth (tl p)
        else set_error SPASM_ERR_OPERATOR_EXPECTED ;;; ret OpBad
      end
  end.

Definition dec_depth : M unit := d <- get s_depth ;; upd (set_depth (d - 1)).

(** parser.cpp:524-533: a leading ~, + or -.  The result is (invert, negate, rest). *)
Definition unary (p : text) : bool * bool * text :=
  let c := hd0 p in
  if c =? 126 then (true, false, skip_ws (tl p))
  else if ((c =? 45) || (c =? 43)) && negb (hd1 p =? c) &&
          (negb (hd1 p =? 95) ||
           negb (Nat.eqb (length (skip_to_name_end (tl p))) (length (tl (tl p)))))
  then (false, c =? 45, skip_ws (tl p))
  else (false, false, p).

(** parser.cpp:518-646: the loop of [parse_num_full]. *)
Fixpoint num_loop (fuel : nat) (depth total : Z) (op : mathop) (ln : option Z) (p : text)
  : M (option (text * Z)) :=
  match fuel with
  | O => nofuel
  | S f =>
    let '(inv, neg, p) := unary p in
    r <- (if hd0 p =? 40 then
            r <- f_full R (tl p) (depth + 1) ;;
            ret (match r with Some (q, v) => Some (q, Some v) | None => None end)
          else parse_single p) ;;
    match r with
    | None => ret None
    | Some (p, v) =>
      match (match v with Some _ => v | None => ln end) with
      | None => undef UB_uninit
      | Some n =>
        let n := if inv then Z.lnot n else n in
        n <- (if neg then int_res C (- n) else ret n) ;;
        if is_divmod op && (n =? 0) then set_error SPASM_ERR_DIVIDE_BY_ZERO ;;; ret None
        else if is_divmod op && (total =? INT_MIN) && (n =? -1)
        then set_error SPASM_ERR_DIVIDE_IMIN1 ;;; ret None
        else
          total <- apply_op C op total n ;;
          o <- get_op (S (length p)) depth p ;;
          match o with
          | OpEnd q => dec_depth ;;; ret (Some (q, total))
          | OpClose q => dec_depth ;;; ret (Some (q, total))
          | OpBad => ret None
          | OpNext o q => num_loop f depth total o (Some n) q
          end
      end
    end
  end.

(** parser.cpp:497-646 [parse_num_full]. *)
Definition parse_num_full (p : text) (depth : Z) : M (option (text * Z)) :=
  upd (set_fwd false) ;;;
  d <- get s_depth ;;
  upd (set_depth (d + 1)) ;;;
  if RECURSION_LIMIT <? d + 1 then set_error SPASM_ERR_EXCEEDED_RECURSION_LIMIT ;;; ret None
  else
    let p := skip_ws p in
    match p with
    | [] => set_error SPASM_ERR_VALUE_EXPECTED ;;; ret None
    | _ => num_loop (S (length p)) depth 0 M_NONE None p
    end.

(** utils.cpp:790-870 [expand_expr_full] and its helpers. *)
Fixpoint skip_string (p : text) : text :=
  match p with
  | [] => []
  | c :: p' =>
    if c =? 34 then p
    else if c =? 92 then match p' with [] => [] | _ :: p'' => skip_string p'' end
    else skip_string p'
  end.
Definition separators : text := zs "=+-*<>|&/%^()\, " ++ [9; 13].
Fixpoint skip_seps (p : text) : text :=
  match p with c :: p' => if memb c separators then skip_seps p' else p | [] => [] end.

Fixpoint expand_loop (fuel : nat) (depth : Z) (local : bool) (p : text) : M text :=
  match fuel with
  | O => nofuel
  | S f =>
    match p with
    | [] => ret []
    | _ =>
      let '(out1, p) :=
        if hd0 p =? 34 then
          let q := skip_string (tl p) in
          let q := match q with [] => [] | _ :: q' => q' end in
          (seg p q, q)
        else ([], p) in
      let next := skip_to_name_end p in
      let rest (out2 p : text) :=
        let q := skip_seps p in
        t <- expand_loop f depth local q ;;
        ret (out1 ++ out2 ++ seg p q ++ t) in
      if Nat.ltb (length next) (length p) then
        let name := seg p next in
        def <- search_defines C name local ;;
        cont <- match def with
                | None => ret None
                | Some r => d <- get_define r ;;
                            ret (match d_contents d with Some t => Some (r, d, t) | None => None end)
                end ;;
        match cont with
        | Some (r, d, t) =>
          let* ' (q, args) :=
            (if Nat.ltb 0 (length (d_args d)) then parse_args next r else ret (next, None)) in
          d' <- get_define r ;;
          t <- match d_contents d' with Some t => ret t | None => undef UB_null end ;;
          out2 <- f_expand R (depth + 1) t local ;;
          remove_arg_set args ;;;
          e <- get s_erroc ;;
          if e then ret (out1 ++ out2) else rest out2 q
        | None =>
          lab <- search_labels C name ;;
          match lab with
          | Some l => rest (firstn 9 (dec (l_value l))) next
          | None => rest name next
          end
        end
      else
        match p with
        | [] => rest [] []
        | c :: p' => rest [c] p'
        end
    end
  end.
Definition expand_expr_full (depth : Z) (p : text) (local : bool) : M text :=
  if RECURSION_LIMIT <? depth then set_error SPASM_ERR_RECURSION_DEPTH ;;; ret []
  else expand_loop (S (length p)) depth local p.

(** utils.cpp:872-883 [expand_expr]. *)
Definition expand_expr (p : text) (local : bool) : M text := f_expand R 0 p local.

(** utils.cpp:230-254 [eval]. *)
Definition eval (expr : text) : M text :=
  n <- start_session ;;
  r <- parse_num expr ;;
  end_session n ;;;
  match r with
  | Some v =>
    if v <? 0 then v <- int_res C (- v) ;; ret (45 :: 36 :: hexmin (u32 v))
    else ret (36 :: hexmin v)
  | None => expand_expr expr true
  end.

(** utils.cpp:735-741 [define_with_value]. *)
Definition define_with_value (name : text) (value : Z) : M bool :=
  d <- search_defines C name true ;;
  match d with
  | None => ret false
  | Some r =>
    d <- get_define r ;;
    match d_contents d with
    | None => undef UB_null
    | Some t => v <- parse_f t ;; ret (v =? value)
    end
  end.

(** set_define with its expansion (storage.cpp:496). *)
Definition redefine (r : dref) (t : text) (redefined : bool) : M unit :=
  set_define C (fun t => expand_expr t false) r t redefined.

End Parser.
