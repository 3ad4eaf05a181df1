(** Model of errors.cpp: the list of recorded problems and the error sessions; and of the
    console messages of utils.cpp:885-978 as far as they change the exit status. *)
From Verif Require Import Base State.

(** errors.h:10-86. *)
Definition SPASM_ERR_FILE_NOT_FOUND : Z := 1.
Definition SPASM_ERR_NO_ACCESS : Z := 2.
Definition SPASM_ERR_LOCAL_LABEL_FORWARD_REF : Z := 256.
Definition SPASM_ERR_LOCAL_LABEL_SYNTAX : Z := 257.
Definition SPASM_ERR_ARG_USED_WITHOUT_VALUE : Z := 258.
Definition SPASM_ERR_OPERATOR_EXPECTED : Z := 259.
Definition SPASM_ERR_VALUE_EXPECTED : Z := 260.
Definition SPASM_ERR_BAD_VALUE_PREFIX : Z := 261.
Definition SPASM_ERR_LABEL_NOT_FOUND : Z := 262.
Definition SPASM_ERR_INVALID_ADDRESS : Z := 263.
Definition SPASM_ERR_SIZE_MUST_BE_POSITIVE : Z := 264.
Definition SPASM_ERR_FILENAME_EXPECTED : Z := 265.
Definition SPASM_ERR_INVALID_OPERANDS : Z := 272.
Definition SPASM_ERR_UNKNOWN_PREOP : Z := 273.
Definition SPASM_ERR_UNKNOWN_OPCODE : Z := 275.
Definition SPASM_ERR_EQUATE_MISSING_LABEL : Z := 276.
Definition SPASM_ERR_EXCEEDED_RECURSION_LIMIT : Z := 277.
Definition SPASM_ERR_UNMATCHED_IF : Z := 278.
Definition SPASM_ERR_STRAY_PREOP : Z := 279.
Definition SPASM_ERR_EXPRESSION_EXPECTED : Z := 280.
Definition SPASM_ERR_SYNTAX : Z := 281.
Definition SPASM_ERR_JUMP_EXCEEDED : Z := 288.
Definition SPASM_ERR_INDEX_OFFSET_EXCEEDED : Z := 289.
Definition SPASM_ERR_NAME_EXPECTED : Z := 290.
Definition SPASM_ERR_NO_PREVIOUS_DEFINE : Z := 291.
Definition SPASM_ERR_ELIF_WITHOUT_IF : Z := 292.
Definition SPASM_ERR_INVALID_OPTION : Z := 293.
Definition SPASM_ERR_INVALID_ADDINSTR : Z := 294.
Definition SPASM_ERR_INVALID_RST_OPERANDS : Z := 295.
Definition SPASM_ERR_DEFINE_HAS_NO_VALUE : Z := 296.
Definition SPASM_ERR_RECURSION_DEPTH : Z := 297.
Definition SPASM_ERR_INVALID_INDEX_OFFSET : Z := 305.
Definition SPASM_ERR_INVALID_DECIMAL_DIGIT : Z := 512.
Definition SPASM_ERR_INVALID_HEX_DIGIT : Z := 513.
Definition SPASM_ERR_INVALID_BINARY_DIGIT : Z := 514.
Definition SPASM_ERR_DIVIDE_BY_ZERO : Z := 515.
Definition SPASM_ERR_INTEGER_OVERFLOW : Z := 516.
Definition SPASM_ERR_DIVIDE_IMIN1 : Z := 517.
Definition SPASM_ERR_FCREATE_NOFILE : Z := 769.
Definition SPASM_ERR_SIGNER_MISSING_LENGTH : Z := 1281.
Definition SPASM_ERR_SIGNER_PRGM_TYPE : Z := 1282.
Definition SPASM_ERR_SIGNER_MISSING_PAGES : Z := 1283.
Definition SPASM_ERR_SIGNER_MISSING_NAME : Z := 1284.
Definition SPASM_ERR_SIGNER_ROOM_FOR_SIG : Z := 1285.
Definition SPASM_ERR_CUSTOM : Z := 1536.
Definition SPASM_WARN_TRUNCATING_8 : Z := 2048.
Definition SPASM_WARN_TRUNCATING_16 : Z := 2049.
Definition SPASM_WARN_SMALL_LAST_PAGE : Z := 2050.
Definition SPASM_WARN_UNKNOWN_EXTENSION : Z := 2051.
Definition SPASM_WARN_MACRO_TOO_MANY_ARGS : Z := 2052.
Definition SPASM_WARN_SIGNER_FILE_SIZE_64KB : Z := 1360.
Definition SPASM_WARN_SIGNER_FILE_SIZE_24KB : Z := 1361.

(** spasm.h:29-34. *)
Definition EXIT_NORMAL : Z := 0.
Definition EXIT_WARNINGS : Z := 1.
Definition EXIT_ERRORS : Z := 2.
Definition EXIT_FATAL_ERROR : Z := 3.

(** errors.cpp:110-116 [IsSPASMErrorFatal]. *)
Definition is_fatal (code : Z) : bool :=
  negb ((code =? SPASM_ERR_LOCAL_LABEL_FORWARD_REF) || (code =? SPASM_ERR_LABEL_NOT_FOUND) ||
        (code =? 0) || (code =? SPASM_ERR_RECURSION_DEPTH)).

(** The loops of errors.cpp visit the leading problems of one session. *)
Fixpoint lead (n : Z) (l : list err) : list err :=
  match l with
  | e :: l' => if e_sess e =? n then e :: lead n l' else []
  | [] => []
  end.
Fixpoint unlead (n : Z) (l : list err) : list err :=
  match l with
  | e :: l' => if e_sess e =? n then unlead n l' else l
  | [] => []
  end.

(** errors.cpp:94-107 [GetSPASMErrorSessionErrorCount]. *)
Definition err_count (n : Z) (l : list err) : Z :=
  zlen (filter (fun e => negb (e_code e =? 0)) (lead n l)).
(** errors.cpp:118-133 [IsSPASMErrorSessionFatal]. *)
Definition sess_fatal (n : Z) (l : list err) : bool :=
  existsb (fun e => is_fatal (e_code e)) (lead n l).
(** errors.cpp:183-196 [IsErrorInSPASMErrorSession]. *)
Definition sess_has (n code : Z) (l : list err) : bool :=
  existsb (fun e => e_code e =? code) (lead n l).

(** errors.cpp:135-153 [ReplayErrorRecursive]: the problems printed, oldest first. *)
Definition replay_print (fatal_only : bool) (l : list err) : list err :=
  filter (fun e => (e_sess e =? 1) && (negb fatal_only || is_fatal (e_code e))) (rev l).
(** errors.cpp:163-172: the leading problems move to the enclosing session. *)
Fixpoint replay_up (n : Z) (l : list err) : list err :=
  match l with
  | e :: l' =>
      if e_sess e =? n
      then mkerr (e_code e) (n - 1) (e_warn e) (e_line e) (e_file e) :: replay_up n l'
      else l
  | [] => []
  end.

(** errors.cpp:87-91 [StartSPASMErrorSession]. *)
Definition start_session : M Z :=
  n <- get s_sess ;; upd (set_sess (n + 1)) ;;; ret (n + 1).

(** errors.cpp:155-174 [ReplaySPASMErrorSession].  Nothing is printed in code counter mode
    (errors.cpp:33-36). *)
Definition replay_session (C : cfg) (n : Z) (fatal_only : bool) : M unit :=
  l <- get s_errs ;;
  if n =? 1 then
    p <- get s_printed ;;
    upd (set_printed (if c_counter C then p else p ++ replay_print fatal_only l))
  else upd (set_errs (replay_up n l)).

(** errors.cpp:231-239 and 242-277 [EndSPASMErrorSession], [CleanupSPASMErrorSession]. *)
Definition end_session (n : Z) : M unit :=
  l <- get s_errs ;;
  g <- get s_sess ;;
  upd (set_errs (unlead n l)) ;;; upd (set_sess (g - 1)) ;;;
  if (n =? 1) && existsb (fun e => is_fatal (e_code e)) (lead n l)
  then (fun s => Exit EXIT_FATAL_ERROR s) else ret tt.

(** errors.cpp:328-375 [SetLastSPASMProblem] for a nonzero code. *)
Definition set_problem (warn : bool) (code : Z) : M unit :=
  l <- get s_errs ;; n <- get s_sess ;; ln <- get s_line ;; f <- get s_file ;;
  upd (set_errs (mkerr code n warn ln f :: l)).
(** errors.cpp:387-398 and 377-385. *)
Definition set_error (code : Z) : M unit := set_problem false code.
Definition set_warning (code : Z) : M unit := set_problem true code.

(** utils.cpp:899-914 [show_error], 960-978 [show_warning], 916-939 [show_fatal_error]:
    only the exit status and [error_occurred] are modelled, not the text printed. *)
Definition raise_exit (n : Z) : M unit :=
  c <- get s_exitc ;; upd (set_exitc (if c <? n then n else c)).
Definition show_warning : M unit := raise_exit EXIT_WARNINGS.
Definition show_error : M unit := raise_exit EXIT_ERRORS.
Definition show_fatal_error : M unit :=
  raise_exit EXIT_FATAL_ERROR ;;; upd (set_erroc true).
