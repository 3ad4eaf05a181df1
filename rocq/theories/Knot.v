(** The line handling of pass_one.cpp, and the knot that ties the mutually recursive functions
    of the assembler. *)
From Verif Require Import Base State UtilsModel ErrorsModel StorageModel ParserModel PassTwoModel
  BitmapModel PreopModel PassOneModel DirectiveModel.

Section Lines.
Variable C : cfg.
Variable R : fns.

(** pass_one.cpp:240-256: [name = value]. *)
Definition equate (p : text) : M text :=
  w <- read_expr p [] ;;
  v <- parse_num R (rx_word w) ;;
  match v with
  | None => ret tt
  | Some v =>
    l <- get s_last_label ;;
    match l with
    | None => set_error SPASM_ERR_EQUATE_MISSING_LABEL
    | Some k => set_label_value k v
    end
  end ;;;
  ret (rx_ptr w).

(** pass_one.cpp:192-262 [run_first_pass_line_sec]; [None] is NULL. *)
Fixpoint line_sec (fuel : nat) (p : text) : M (option text) :=
  match fuel with
  | O => nofuel
  | S f =>
    let some (m : M text) := q <- m ;; ret (Some q) in
    if is_eol p then ret (Some p)
    else if isalpha (hd0 p) || (hd0 p =? 95) then
      let e := skip_to_name_end p in
      if hd0 e =? 40 then some (handle_opcode_or_macro C R p)
      else
        let name := seg p e in
        (if eqbl name (zs "_") then add_reusable
         else pc <- get s_pc ;; l <- add_label C name (wrap32 pc) ;; upd (set_last_label l)) ;;;
        line_sec f (skip_char 58 e)
    else if isspace (hd0 p) then
      let p := skip_ws p in
      if isalpha (hd0 p) || (hd0 p =? 95) then some (handle_opcode_or_macro C R p)
      else line_sec f p
    else if hd0 p =? 46 then handle_directive C R (tl p)
    else if hd0 p =? 35 then f_preop R (tl p)
    else if hd0 p =? 61 then some (equate (tl p))
    else set_error SPASM_ERR_SYNTAX ;;; ret (Some p)
  end.

(** pass_one.cpp:165-183 [run_first_pass_line]: the sections of a line, separated by
    backslashes. *)
Fixpoint line_loop (fuel : nat) (p : text) : M (option text) :=
  match fuel with
  | O => nofuel
  | S f =>
    let p := skip_char 92 p in
    r <- line_sec (S (length p)) p ;;
    match r with
    | None => ret None
    | Some q =>
      let q := skip_ws q in
      e <- get s_erroc ;;
      if negb e && (hd0 q =? 92) then line_loop f q else ret (Some q)
    end
  end.
Definition run_first_pass_line (p : text) : M (option text) := line_loop (f_n R) p.

(** pass_one.cpp:116-156 [run_first_pass]. *)
Fixpoint pass_loop (fuel : nat) (p : text) : M unit :=
  match fuel with
  | O => nofuel
  | S f =>
    e <- get s_erroc ;;
    match p with
    | [] => ret tt
    | _ =>
      if e then ret tt
      else
        r <- f_line R p ;;
        match r with
        | None => ret tt
        | Some q => add_line 1 ;;; pass_loop f (skip_to_next_line q)
        end
    end
  end.
Definition run_first_pass (p : text) : M unit :=
  upd (set_line 1) ;;;
  whenM (c_ez80 C) (upd (set_adl true)) ;;;
  pass_loop (f_n R) p.

End Lines.

(** The mutually recursive functions, each allowed [n] nested calls. *)
Fixpoint knot (C : cfg) (n : nat) : fns :=
  match n with
  | O => fns0
  | S m =>
    let R := knot C m in
    mkfns n (parse_num_full C R) (eval C R) (expand_expr_full C R) (handle_preop C R)
      (handle_preop_if R) (run_first_pass_line C R) (run_first_pass C R) (parse_emit_string C R)
  end.
