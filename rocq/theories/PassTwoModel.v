(** Model of pass_two.cpp, and of [write_out] (pass_one.cpp:38-72).  The listing is not
    modelled. *)
From Verif Require Import Base State UtilsModel ErrorsModel StorageModel ParserModel.

(** spasm.h:58 output_buf_size. *)
Definition OUTPUT_BUF_SIZE : Z := 8000000.

(** Writing byte [v] at offset [i]; the buffer beyond the highest byte written is zero (it is
    freshly mapped memory). *)
Fixpoint put_at (i : nat) (v : Z) (l : list Z) : list Z :=
  match i, l with
  | O, [] => [v]
  | O, _ :: l' => v :: l'
  | S i', [] => 0 :: put_at i' v []
  | S i', x :: l' => x :: put_at i' v l'
  end.

(** pass_one.cpp:38-72 [write_out]: one byte at [out_ptr], which moves on. *)
Definition write_out (v : Z) : M unit :=
  i <- get s_pos ;;
  if (0 <=? i) && (i <? OUTPUT_BUF_SIZE) then
    m <- get s_mem ;;
    upd (set_mem (put_at (Z.to_nat i) (u8 v) m)) ;;;
    upd (set_pos (i + 1))
  else undef UB_outbuf.
Fixpoint write_all (l : list Z) : M unit :=
  match l with [] => ret tt | v :: l' => write_out v ;;; write_all l' end.

(** [program_counter += n]: unsigned. *)
Definition add_pc (n : Z) : M unit := pc <- get s_pc ;; upd (set_pc (u32 (pc + n))).
Definition add_datasize (n : Z) : M unit :=
  d <- get s_datasize ;; upd (set_datasize (u32 (d + n))).

(** pass_two.cpp:166-173 and 263-271. *)
Definition rst_ok (v : Z) : bool := memb v [0; 8; 16; 24; 32; 40; 48; 56].

Section PassTwo.
Variable C : cfg.
Variable R : fns.

(** pass_two.cpp:252-329 [write_arg]. *)
Definition write_arg (value : Z) (t : arg_type) (inst_size or_value : Z) : M unit :=
  match t with
  | ARG_NUM_8 =>
    whenM ((value <? -128) || (255 <? value)) (set_warning SPASM_WARN_TRUNCATING_8) ;;;
    write_out (Z.land value 255)
  | ARG_RST =>
    if rst_ok value then write_out (value + 199) else set_error SPASM_ERR_INVALID_RST_OPERANDS
  | ARG_NUM_16 =>
    whenM (c_ez80 C && ((value <? -32768) || (65535 <? value))) (set_warning SPASM_WARN_TRUNCATING_16) ;;;
    write_out (Z.land value 255) ;;;
    write_out (Z.land (Z.shiftr value 8) 255)
  | ARG_NUM_24 =>
    write_out (Z.land value 255) ;;;
    write_out (Z.land (Z.shiftr value 8) 255) ;;;
    write_out (Z.land (Z.shiftr value 16) 255)
  | ARG_ADDR_OFFSET =>
    pc <- get s_pc ;;
    let m := if c_ez80 C then 16777215 else 65535 in
    let v := wrap32 (Z.land value m - (Z.land pc m + inst_size)) in
    if (v <? -128) || (127 <? v)
    then set_error SPASM_ERR_JUMP_EXCEEDED ;;; write_out 0
    else write_out (Z.land v 255)
  | ARG_IX_IY_OFFSET =>
    if (127 <? value) || (value <? -128)
    then set_error SPASM_ERR_INDEX_OFFSET_EXCEEDED ;;; write_out 0
    else write_out (Z.land value 255)
  | ARG_BIT_NUM =>
    let bad := (value <? 0) || (7 <? value) in
    whenM bad show_error ;;;
    write_out (Z.lor (Z.shiftl (Z.land (if bad then 0 else value) 7) 3) or_value)
  end.

(** pass_two.cpp:24-88 [add_pass_two_expr].  The queue entry is linked before its text is
    expanded; expansion does not look at the queue unless it includes more source, so it is
    appended after. *)
Definition add_pass_two_expr (expr : text) (t : arg_type) (inst_size or_value : Z) : M unit :=
  n <- start_session ;;
  r <- parse_num R expr ;;
  l <- get s_errs ;;
  match r with
  | Some v =>
    write_arg v t inst_size or_value ;;; replay_session C n false
  | None =>
    if sess_fatal n l then replay_session C n false
    else
      pc <- get s_pc ;; ln <- get s_line ;; reus <- get_curr_reusable ;;
      pos <- get s_pos ;; f <- get s_file ;;
      e <- expand_expr R expr true ;;
      q <- get s_exprs ;;
      upd (set_exprs (q ++ [mkpexpr pc ln reus pos e t f inst_size or_value])) ;;;
      write_arg 0 (match t with ARG_ADDR_OFFSET => ARG_NUM_8 | _ => t end) inst_size 0
  end ;;;
  end_session n.

(** pass_two.cpp:98-121 [add_pass_two_output]. *)
Definition add_pass_two_output (expr : text) (t : output_type) : M unit :=
  pc <- get s_pc ;; ln <- get s_line ;; reus <- get_curr_reusable ;; f <- get s_file ;;
  e <- match t with OUTPUT_SHOW => ret expr | OUTPUT_ECHO => expand_expr R expr true end ;;
  q <- get s_outputs ;;
  upd (set_outputs (q ++ [mkpoutput pc ln reus e t f])).

(** Console output. *)
Definition print (t : text) : M unit := o <- get s_stdout ;; upd (set_stdout (t :: o)).

(** directive.cpp:490-509 [show_define]. *)
Fixpoint comma_list (l : list text) : text :=
  match l with
  | [] => []
  | [x] => x
  | x :: l' => x ++ zs ", " ++ comma_list l'
  end.
Definition show_define (r : dref) : M unit :=
  d <- get_define r ;;
  print (d_name d ++
         (match d_args d with [] => [] | a => 40 :: comma_list a ++ [41] end) ++
         (match d_contents d with Some t => zs ": " ++ t | None => [] end) ++ [10]).

(** pass_two.cpp:147-191: the queued expressions in order. *)
Definition second_pass_expr (e : pexpr) : M unit :=
  upd (set_pc (x_pc e)) ;;; upd (set_line (x_line e)) ;;; upd (set_file (x_file e)) ;;;
  set_curr_reusable (x_reus e) ;;;
  r <- parse_num R (x_expr e) ;;
  match r with
  | None => ret tt
  | Some v =>
    match x_type e with
    | ARG_RST =>
      if rst_ok v then write_arg (v + 199) ARG_RST (x_size e) (x_or e)
      else set_error SPASM_ERR_INVALID_RST_OPERANDS
    | t =>
      upd (set_pos (x_pos e)) ;;;
      write_arg v t (x_size e) (x_or e)
    end
  end.
Fixpoint second_pass_exprs (l : list pexpr) : M unit :=
  match l with
  | [] => ret tt
  | e :: l' => second_pass_expr e ;;; second_pass_exprs l'
  end.

(** pass_two.cpp:199-240: the queued console messages in order. *)
Definition second_pass_output (o : poutput) : M unit :=
  upd (set_pc (o_pc o)) ;;; upd (set_line (o_line o)) ;;; upd (set_file (o_file o)) ;;;
  set_curr_reusable (o_reus o) ;;;
  match o_type o with
  | OUTPUT_ECHO =>
    n <- start_session ;;
    let* ' (_, t) := f_emit R (o_expr o) E_STDOUT in
    print t ;;;
    replay_session C n false ;;;
    end_session n
  | OUTPUT_SHOW =>
    d <- search_defines C (o_expr o) true ;;
    match d with
    | None => set_error SPASM_ERR_LABEL_NOT_FOUND
    | Some r => show_define r
    end
  end.
Fixpoint second_pass_outputs (l : list poutput) : M unit :=
  match l with
  | [] => ret tt
  | o :: l' => second_pass_output o ;;; second_pass_outputs l'
  end.

(** pass_two.cpp:134-242 [run_second_pass].  Evaluating an expression can queue no further
    one unless a define includes more source with a preprocessor line; such additions are
    not picked up here. *)
Definition run_second_pass : M unit :=
  pos <- get s_pos ;; f <- get s_file ;; q <- get s_exprs ;;
  second_pass_exprs q ;;;
  upd (set_exprs []) ;;;
  upd (set_pos pos) ;;;
  o <- get s_outputs ;;
  second_pass_outputs o ;;;
  upd (set_outputs []) ;;;
  upd (set_file f).

End PassTwo.
