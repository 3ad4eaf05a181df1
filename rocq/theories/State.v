(** State of the assembler and the monad in which its functions are modelled.
    The C++ globals become fields of one record; a C++ function becomes a function from
    state to an outcome. *)
From Verif Require Import Base.

Definition text := list Z.

(** define_t, storage.h:16-24.  [num_args] is the length of [d_args]. *)
Record define := mkdefine {
  d_name : text; d_line : Z; d_file : text; d_contents : option text; d_args : list text }.

(** label_t, storage.h:26-31. *)
Record label := mklabel { l_name : text; l_line : Z; l_file : text; l_value : Z }.

(** A [define_t *]: an entry of define_table, or of the argument set with the given id. *)
Inductive dref := RG (name : text) | RL (id : nat) (name : text).

(** ERRORINSTANCE, errors.cpp:10-21.  The message text and annotation are not modelled. *)
Record err := mkerr { e_code : Z; e_sess : Z; e_warn : bool; e_line : Z; e_file : text }.

(** arg_type, pass_two.h:4-12. *)
Inductive arg_type :=
  ARG_NUM_8 | ARG_NUM_16 | ARG_NUM_24 | ARG_ADDR_OFFSET | ARG_IX_IY_OFFSET | ARG_BIT_NUM | ARG_RST.

(** output_type, pass_two.h:14-17. *)
Inductive output_type := OUTPUT_ECHO | OUTPUT_SHOW.

(** expr_t, pass_two.h:19-32, without the listing fields. *)
Record pexpr := mkpexpr {
  x_pc : Z; x_line : Z; x_reus : Z; x_pos : Z; x_expr : text; x_type : arg_type;
  x_file : text; x_size : Z; x_or : Z }.

(** output_t, pass_two.h:34-42. *)
Record poutput := mkpoutput {
  o_pc : Z; o_line : Z; o_reus : Z; o_expr : text; o_type : output_type; o_file : text }.

(** instr, opcodes.h:4-14.  [i_data] lists the opcode bytes in the order of the array. *)
Record instr := mkinstr {
  i_args : text; i_data : list Z; i_size0 : Z; i_min : Z; i_max : Z;
  i_has_end : bool; i_end : Z; i_size : Z; i_adl : Z }.

(** opcode, opcodes.h:16-23.  The [next] chain is the list order. *)
Record opcode := mkopcode { op_name : text; op_instrs : list instr }.

(** Options fixed for a run (main.cpp:254-475) and the outside world.  [c_files] gives the
    content of every readable file; the listing (-T) is not modelled. *)
Record cfg := mkcfg {
  c_normal : bool;        (* MODE_NORMAL, spasm.h:20: not -O *)
  c_counter : bool;       (* MODE_CODE_COUNTER: -C *)
  c_symtable : bool;      (* MODE_SYMTABLE: -L *)
  c_list : bool;          (* MODE_LIST: -T *)
  c_ez80 : bool;          (* MODE_EZ80: -E *)
  c_case : bool;          (* case_sensitive, storage.cpp:30: -A *)
  c_files : text -> option (list Z);
  c_rand : nat -> Z;      (* results of successive rand() calls *)
  c_cwd : text;           (* temp_path, spasm.h:73, as main.cpp:93-111 sets it *)
  c_md5 : list Z -> list Z; (* MD5 of the OpenSSL library: 16 bytes *)
  c_wrap : bool           (* signed overflow in + - * and negation wraps around, as compiled code
                             does in practice; if false it is undefined, as the language says *) }.

Record st := mkst {
  s_labels : list (text * label);  (* label_table, storage.cpp:31 (std::map ordered by strcmp, hash.h:13-24) *)
  s_defines : list (text * define);  (* define_table, storage.cpp:31 *)
  s_args : list (nat * list (text * define));  (* arg_list, storage.cpp:32: innermost first, each set with a unique id *)
  s_nextid : nat;  (* model only: id of the next argument set *)
  s_reus : list Z;  (* reusables[], storage.cpp:21 *)
  s_curr_reus : Z;  (* curr_reusable, spasm.h:84 *)
  s_total_reus : Z;  (* total_reusables, spasm.h:84 *)
  s_last_label : option text;  (* last_label, spasm.h:62: key in label_table *)
  s_last_define : option dref;  (* last_define, preop.cpp:21 *)
  s_errs : list err;  (* g_ErrorList, errors.cpp:28, most recent first *)
  s_sess : Z;  (* g_nErrorSession, errors.cpp:29 *)
  s_printed : list err;  (* model only: problems printed so far, oldest first *)
  s_depth : Z;  (* parse_depth, parser.cpp:103 *)
  s_fwd : bool;  (* parser_forward_ref_err, parser.cpp:101 *)
  s_pc : Z;  (* program_counter, spasm.h:61 (unsigned) *)
  s_line : Z;  (* line_num, spasm.h:64 *)
  s_file : text;  (* curr_input_file, spasm.h:66 *)
  s_pos : Z;  (* out_ptr - output_contents, spasm.h:68 *)
  s_mem : list Z;  (* output_contents, spasm.h:68, up to the highest byte written *)
  s_exitc : Z;  (* exit_code, spasm.h:79 *)
  s_erroc : bool;  (* error_occurred, spasm.h:69 *)
  s_adl : bool;  (* adl_mode, pass_one.cpp:29 *)
  s_iflevel : Z;  (* nIfLevel, preop.cpp:22 *)
  s_exprs : list pexpr;  (* expr_list, pass_two.cpp:12, first queued first *)
  s_outputs : list poutput;  (* output_list, pass_two.cpp:13, first queued first *)
  s_opcodes : list opcode;  (* all_opcodes, opcodes.h:24 *)
  s_curbuf : Z;  (* cur_buf, spasm.h:87 *)
  s_bufs : list (option text);  (* fcreate_bufs[], pass_one.cpp:19 *)
  s_infiles : list text;  (* input_files, spasm.h:60 *)
  s_incdirs : list text;  (* include_dirs, spasm.h:60 *)
  s_emitlev : Z;  (* level, directive.cpp:530 *)
  s_randn : nat;  (* model only: number of rand() calls so far *)
  s_stdout : list text;  (* model only: text echoed to the console, latest first *)
  s_echofiles : list (text * bool * text);  (* model only: .echo > file writes (name, append, text), latest first *)
  s_outfiles : list (text * list Z);  (* model only: output and label files written (name, contents), latest first *)
  s_codesize : Z;  (* stats_codesize, spasm.h:63 *)
  s_datasize : Z;  (* stats_datasize, spasm.h:63 *)
  s_mintime : Z;  (* stats_mintime, spasm.h:63 *)
  s_maxtime : Z  (* stats_maxtime, spasm.h:63 *)
}.

Definition set_labels (v : list (text * label)) (s : st) : st := mkst
  v (s_defines s) (s_args s) (s_nextid s) (s_reus s) (s_curr_reus s) (s_total_reus s) (s_last_label s) (s_last_define s) (s_errs s) (s_sess s) (s_printed s) (s_depth s) (s_fwd s) (s_pc s) (s_line s) (s_file s) (s_pos s) (s_mem s) (s_exitc s) (s_erroc s) (s_adl s) (s_iflevel s) (s_exprs s) (s_outputs s) (s_opcodes s) (s_curbuf s) (s_bufs s) (s_infiles s) (s_incdirs s) (s_emitlev s) (s_randn s) (s_stdout s) (s_echofiles s) (s_outfiles s) (s_codesize s) (s_datasize s) (s_mintime s) (s_maxtime s).
Definition set_defines (v : list (text * define)) (s : st) : st := mkst
  (s_labels s) v (s_args s) (s_nextid s) (s_reus s) (s_curr_reus s) (s_total_reus s) (s_last_label s) (s_last_define s) (s_errs s) (s_sess s) (s_printed s) (s_depth s) (s_fwd s) (s_pc s) (s_line s) (s_file s) (s_pos s) (s_mem s) (s_exitc s) (s_erroc s) (s_adl s) (s_iflevel s) (s_exprs s) (s_outputs s) (s_opcodes s) (s_curbuf s) (s_bufs s) (s_infiles s) (s_incdirs s) (s_emitlev s) (s_randn s) (s_stdout s) (s_echofiles s) (s_outfiles s) (s_codesize s) (s_datasize s) (s_mintime s) (s_maxtime s).
Definition set_args (v : list (nat * list (text * define))) (s : st) : st := mkst
  (s_labels s) (s_defines s) v (s_nextid s) (s_reus s) (s_curr_reus s) (s_total_reus s) (s_last_label s) (s_last_define s) (s_errs s) (s_sess s) (s_printed s) (s_depth s) (s_fwd s) (s_pc s) (s_line s) (s_file s) (s_pos s) (s_mem s) (s_exitc s) (s_erroc s) (s_adl s) (s_iflevel s) (s_exprs s) (s_outputs s) (s_opcodes s) (s_curbuf s) (s_bufs s) (s_infiles s) (s_incdirs s) (s_emitlev s) (s_randn s) (s_stdout s) (s_echofiles s) (s_outfiles s) (s_codesize s) (s_datasize s) (s_mintime s) (s_maxtime s).
Definition set_nextid (v : nat) (s : st) : st := mkst
  (s_labels s) (s_defines s) (s_args s) v (s_reus s) (s_curr_reus s) (s_total_reus s) (s_last_label s) (s_last_define s) (s_errs s) (s_sess s) (s_printed s) (s_depth s) (s_fwd s) (s_pc s) (s_line s) (s_file s) (s_pos s) (s_mem s) (s_exitc s) (s_erroc s) (s_adl s) (s_iflevel s) (s_exprs s) (s_outputs s) (s_opcodes s) (s_curbuf s) (s_bufs s) (s_infiles s) (s_incdirs s) (s_emitlev s) (s_randn s) (s_stdout s) (s_echofiles s) (s_outfiles s) (s_codesize s) (s_datasize s) (s_mintime s) (s_maxtime s).
Definition set_reus (v : list Z) (s : st) : st := mkst
  (s_labels s) (s_defines s) (s_args s) (s_nextid s) v (s_curr_reus s) (s_total_reus s) (s_last_label s) (s_last_define s) (s_errs s) (s_sess s) (s_printed s) (s_depth s) (s_fwd s) (s_pc s) (s_line s) (s_file s) (s_pos s) (s_mem s) (s_exitc s) (s_erroc s) (s_adl s) (s_iflevel s) (s_exprs s) (s_outputs s) (s_opcodes s) (s_curbuf s) (s_bufs s) (s_infiles s) (s_incdirs s) (s_emitlev s) (s_randn s) (s_stdout s) (s_echofiles s) (s_outfiles s) (s_codesize s) (s_datasize s) (s_mintime s) (s_maxtime s).
Definition set_curr_reus (v : Z) (s : st) : st := mkst
  (s_labels s) (s_defines s) (s_args s) (s_nextid s) (s_reus s) v (s_total_reus s) (s_last_label s) (s_last_define s) (s_errs s) (s_sess s) (s_printed s) (s_depth s) (s_fwd s) (s_pc s) (s_line s) (s_file s) (s_pos s) (s_mem s) (s_exitc s) (s_erroc s) (s_adl s) (s_iflevel s) (s_exprs s) (s_outputs s) (s_opcodes s) (s_curbuf s) (s_bufs s) (s_infiles s) (s_incdirs s) (s_emitlev s) (s_randn s) (s_stdout s) (s_echofiles s) (s_outfiles s) (s_codesize s) (s_datasize s) (s_mintime s) (s_maxtime s).
Definition set_total_reus (v : Z) (s : st) : st := mkst
  (s_labels s) (s_defines s) (s_args s) (s_nextid s) (s_reus s) (s_curr_reus s) v (s_last_label s) (s_last_define s) (s_errs s) (s_sess s) (s_printed s) (s_depth s) (s_fwd s) (s_pc s) (s_line s) (s_file s) (s_pos s) (s_mem s) (s_exitc s) (s_erroc s) (s_adl s) (s_iflevel s) (s_exprs s) (s_outputs s) (s_opcodes s) (s_curbuf s) (s_bufs s) (s_infiles s) (s_incdirs s) (s_emitlev s) (s_randn s) (s_stdout s) (s_echofiles s) (s_outfiles s) (s_codesize s) (s_datasize s) (s_mintime s) (s_maxtime s).
Definition set_last_label (v : option text) (s : st) : st := mkst
  (s_labels s) (s_defines s) (s_args s) (s_nextid s) (s_reus s) (s_curr_reus s) (s_total_reus s) v (s_last_define s) (s_errs s) (s_sess s) (s_printed s) (s_depth s) (s_fwd s) (s_pc s) (s_line s) (s_file s) (s_pos s) (s_mem s) (s_exitc s) (s_erroc s) (s_adl s) (s_iflevel s) (s_exprs s) (s_outputs s) (s_opcodes s) (s_curbuf s) (s_bufs s) (s_infiles s) (s_incdirs s) (s_emitlev s) (s_randn s) (s_stdout s) (s_echofiles s) (s_outfiles s) (s_codesize s) (s_datasize s) (s_mintime s) (s_maxtime s).
Definition set_last_define (v : option dref) (s : st) : st := mkst
  (s_labels s) (s_defines s) (s_args s) (s_nextid s) (s_reus s) (s_curr_reus s) (s_total_reus s) (s_last_label s) v (s_errs s) (s_sess s) (s_printed s) (s_depth s) (s_fwd s) (s_pc s) (s_line s) (s_file s) (s_pos s) (s_mem s) (s_exitc s) (s_erroc s) (s_adl s) (s_iflevel s) (s_exprs s) (s_outputs s) (s_opcodes s) (s_curbuf s) (s_bufs s) (s_infiles s) (s_incdirs s) (s_emitlev s) (s_randn s) (s_stdout s) (s_echofiles s) (s_outfiles s) (s_codesize s) (s_datasize s) (s_mintime s) (s_maxtime s).
Definition set_errs (v : list err) (s : st) : st := mkst
  (s_labels s) (s_defines s) (s_args s) (s_nextid s) (s_reus s) (s_curr_reus s) (s_total_reus s) (s_last_label s) (s_last_define s) v (s_sess s) (s_printed s) (s_depth s) (s_fwd s) (s_pc s) (s_line s) (s_file s) (s_pos s) (s_mem s) (s_exitc s) (s_erroc s) (s_adl s) (s_iflevel s) (s_exprs s) (s_outputs s) (s_opcodes s) (s_curbuf s) (s_bufs s) (s_infiles s) (s_incdirs s) (s_emitlev s) (s_randn s) (s_stdout s) (s_echofiles s) (s_outfiles s) (s_codesize s) (s_datasize s) (s_mintime s) (s_maxtime s).
Definition set_sess (v : Z) (s : st) : st := mkst
  (s_labels s) (s_defines s) (s_args s) (s_nextid s) (s_reus s) (s_curr_reus s) (s_total_reus s) (s_last_label s) (s_last_define s) (s_errs s) v (s_printed s) (s_depth s) (s_fwd s) (s_pc s) (s_line s) (s_file s) (s_pos s) (s_mem s) (s_exitc s) (s_erroc s) (s_adl s) (s_iflevel s) (s_exprs s) (s_outputs s) (s_opcodes s) (s_curbuf s) (s_bufs s) (s_infiles s) (s_incdirs s) (s_emitlev s) (s_randn s) (s_stdout s) (s_echofiles s) (s_outfiles s) (s_codesize s) (s_datasize s) (s_mintime s) (s_maxtime s).
Definition set_printed (v : list err) (s : st) : st := mkst
  (s_labels s) (s_defines s) (s_args s) (s_nextid s) (s_reus s) (s_curr_reus s) (s_total_reus s) (s_last_label s) (s_last_define s) (s_errs s) (s_sess s) v (s_depth s) (s_fwd s) (s_pc s) (s_line s) (s_file s) (s_pos s) (s_mem s) (s_exitc s) (s_erroc s) (s_adl s) (s_iflevel s) (s_exprs s) (s_outputs s) (s_opcodes s) (s_curbuf s) (s_bufs s) (s_infiles s) (s_incdirs s) (s_emitlev s) (s_randn s) (s_stdout s) (s_echofiles s) (s_outfiles s) (s_codesize s) (s_datasize s) (s_mintime s) (s_maxtime s).
Definition set_depth (v : Z) (s : st) : st := mkst
  (s_labels s) (s_defines s) (s_args s) (s_nextid s) (s_reus s) (s_curr_reus s) (s_total_reus s) (s_last_label s) (s_last_define s) (s_errs s) (s_sess s) (s_printed s) v (s_fwd s) (s_pc s) (s_line s) (s_file s) (s_pos s) (s_mem s) (s_exitc s) (s_erroc s) (s_adl s) (s_iflevel s) (s_exprs s) (s_outputs s) (s_opcodes s) (s_curbuf s) (s_bufs s) (s_infiles s) (s_incdirs s) (s_emitlev s) (s_randn s) (s_stdout s) (s_echofiles s) (s_outfiles s) (s_codesize s) (s_datasize s) (s_mintime s) (s_maxtime s).
Definition set_fwd (v : bool) (s : st) : st := mkst
  (s_labels s) (s_defines s) (s_args s) (s_nextid s) (s_reus s) (s_curr_reus s) (s_total_reus s) (s_last_label s) (s_last_define s) (s_errs s) (s_sess s) (s_printed s) (s_depth s) v (s_pc s) (s_line s) (s_file s) (s_pos s) (s_mem s) (s_exitc s) (s_erroc s) (s_adl s) (s_iflevel s) (s_exprs s) (s_outputs s) (s_opcodes s) (s_curbuf s) (s_bufs s) (s_infiles s) (s_incdirs s) (s_emitlev s) (s_randn s) (s_stdout s) (s_echofiles s) (s_outfiles s) (s_codesize s) (s_datasize s) (s_mintime s) (s_maxtime s).
Definition set_pc (v : Z) (s : st) : st := mkst
  (s_labels s) (s_defines s) (s_args s) (s_nextid s) (s_reus s) (s_curr_reus s) (s_total_reus s) (s_last_label s) (s_last_define s) (s_errs s) (s_sess s) (s_printed s) (s_depth s) (s_fwd s) v (s_line s) (s_file s) (s_pos s) (s_mem s) (s_exitc s) (s_erroc s) (s_adl s) (s_iflevel s) (s_exprs s) (s_outputs s) (s_opcodes s) (s_curbuf s) (s_bufs s) (s_infiles s) (s_incdirs s) (s_emitlev s) (s_randn s) (s_stdout s) (s_echofiles s) (s_outfiles s) (s_codesize s) (s_datasize s) (s_mintime s) (s_maxtime s).
Definition set_line (v : Z) (s : st) : st := mkst
  (s_labels s) (s_defines s) (s_args s) (s_nextid s) (s_reus s) (s_curr_reus s) (s_total_reus s) (s_last_label s) (s_last_define s) (s_errs s) (s_sess s) (s_printed s) (s_depth s) (s_fwd s) (s_pc s) v (s_file s) (s_pos s) (s_mem s) (s_exitc s) (s_erroc s) (s_adl s) (s_iflevel s) (s_exprs s) (s_outputs s) (s_opcodes s) (s_curbuf s) (s_bufs s) (s_infiles s) (s_incdirs s) (s_emitlev s) (s_randn s) (s_stdout s) (s_echofiles s) (s_outfiles s) (s_codesize s) (s_datasize s) (s_mintime s) (s_maxtime s).
Definition set_file (v : text) (s : st) : st := mkst
  (s_labels s) (s_defines s) (s_args s) (s_nextid s) (s_reus s) (s_curr_reus s) (s_total_reus s) (s_last_label s) (s_last_define s) (s_errs s) (s_sess s) (s_printed s) (s_depth s) (s_fwd s) (s_pc s) (s_line s) v (s_pos s) (s_mem s) (s_exitc s) (s_erroc s) (s_adl s) (s_iflevel s) (s_exprs s) (s_outputs s) (s_opcodes s) (s_curbuf s) (s_bufs s) (s_infiles s) (s_incdirs s) (s_emitlev s) (s_randn s) (s_stdout s) (s_echofiles s) (s_outfiles s) (s_codesize s) (s_datasize s) (s_mintime s) (s_maxtime s).
Definition set_pos (v : Z) (s : st) : st := mkst
  (s_labels s) (s_defines s) (s_args s) (s_nextid s) (s_reus s) (s_curr_reus s) (s_total_reus s) (s_last_label s) (s_last_define s) (s_errs s) (s_sess s) (s_printed s) (s_depth s) (s_fwd s) (s_pc s) (s_line s) (s_file s) v (s_mem s) (s_exitc s) (s_erroc s) (s_adl s) (s_iflevel s) (s_exprs s) (s_outputs s) (s_opcodes s) (s_curbuf s) (s_bufs s) (s_infiles s) (s_incdirs s) (s_emitlev s) (s_randn s) (s_stdout s) (s_echofiles s) (s_outfiles s) (s_codesize s) (s_datasize s) (s_mintime s) (s_maxtime s).
Definition set_mem (v : list Z) (s : st) : st := mkst
  (s_labels s) (s_defines s) (s_args s) (s_nextid s) (s_reus s) (s_curr_reus s) (s_total_reus s) (s_last_label s) (s_last_define s) (s_errs s) (s_sess s) (s_printed s) (s_depth s) (s_fwd s) (s_pc s) (s_line s) (s_file s) (s_pos s) v (s_exitc s) (s_erroc s) (s_adl s) (s_iflevel s) (s_exprs s) (s_outputs s) (s_opcodes s) (s_curbuf s) (s_bufs s) (s_infiles s) (s_incdirs s) (s_emitlev s) (s_randn s) (s_stdout s) (s_echofiles s) (s_outfiles s) (s_codesize s) (s_datasize s) (s_mintime s) (s_maxtime s).
Definition set_exitc (v : Z) (s : st) : st := mkst
  (s_labels s) (s_defines s) (s_args s) (s_nextid s) (s_reus s) (s_curr_reus s) (s_total_reus s) (s_last_label s) (s_last_define s) (s_errs s) (s_sess s) (s_printed s) (s_depth s) (s_fwd s) (s_pc s) (s_line s) (s_file s) (s_pos s) (s_mem s) v (s_erroc s) (s_adl s) (s_iflevel s) (s_exprs s) (s_outputs s) (s_opcodes s) (s_curbuf s) (s_bufs s) (s_infiles s) (s_incdirs s) (s_emitlev s) (s_randn s) (s_stdout s) (s_echofiles s) (s_outfiles s) (s_codesize s) (s_datasize s) (s_mintime s) (s_maxtime s).
Definition set_erroc (v : bool) (s : st) : st := mkst
  (s_labels s) (s_defines s) (s_args s) (s_nextid s) (s_reus s) (s_curr_reus s) (s_total_reus s) (s_last_label s) (s_last_define s) (s_errs s) (s_sess s) (s_printed s) (s_depth s) (s_fwd s) (s_pc s) (s_line s) (s_file s) (s_pos s) (s_mem s) (s_exitc s) v (s_adl s) (s_iflevel s) (s_exprs s) (s_outputs s) (s_opcodes s) (s_curbuf s) (s_bufs s) (s_infiles s) (s_incdirs s) (s_emitlev s) (s_randn s) (s_stdout s) (s_echofiles s) (s_outfiles s) (s_codesize s) (s_datasize s) (s_mintime s) (s_maxtime s).
Definition set_adl (v : bool) (s : st) : st := mkst
  (s_labels s) (s_defines s) (s_args s) (s_nextid s) (s_reus s) (s_curr_reus s) (s_total_reus s) (s_last_label s) (s_last_define s) (s_errs s) (s_sess s) (s_printed s) (s_depth s) (s_fwd s) (s_pc s) (s_line s) (s_file s) (s_pos s) (s_mem s) (s_exitc s) (s_erroc s) v (s_iflevel s) (s_exprs s) (s_outputs s) (s_opcodes s) (s_curbuf s) (s_bufs s) (s_infiles s) (s_incdirs s) (s_emitlev s) (s_randn s) (s_stdout s) (s_echofiles s) (s_outfiles s) (s_codesize s) (s_datasize s) (s_mintime s) (s_maxtime s).
Definition set_iflevel (v : Z) (s : st) : st := mkst
  (s_labels s) (s_defines s) (s_args s) (s_nextid s) (s_reus s) (s_curr_reus s) (s_total_reus s) (s_last_label s) (s_last_define s) (s_errs s) (s_sess s) (s_printed s) (s_depth s) (s_fwd s) (s_pc s) (s_line s) (s_file s) (s_pos s) (s_mem s) (s_exitc s) (s_erroc s) (s_adl s) v (s_exprs s) (s_outputs s) (s_opcodes s) (s_curbuf s) (s_bufs s) (s_infiles s) (s_incdirs s) (s_emitlev s) (s_randn s) (s_stdout s) (s_echofiles s) (s_outfiles s) (s_codesize s) (s_datasize s) (s_mintime s) (s_maxtime s).
Definition set_exprs (v : list pexpr) (s : st) : st := mkst
  (s_labels s) (s_defines s) (s_args s) (s_nextid s) (s_reus s) (s_curr_reus s) (s_total_reus s) (s_last_label s) (s_last_define s) (s_errs s) (s_sess s) (s_printed s) (s_depth s) (s_fwd s) (s_pc s) (s_line s) (s_file s) (s_pos s) (s_mem s) (s_exitc s) (s_erroc s) (s_adl s) (s_iflevel s) v (s_outputs s) (s_opcodes s) (s_curbuf s) (s_bufs s) (s_infiles s) (s_incdirs s) (s_emitlev s) (s_randn s) (s_stdout s) (s_echofiles s) (s_outfiles s) (s_codesize s) (s_datasize s) (s_mintime s) (s_maxtime s).
Definition set_outputs (v : list poutput) (s : st) : st := mkst
  (s_labels s) (s_defines s) (s_args s) (s_nextid s) (s_reus s) (s_curr_reus s) (s_total_reus s) (s_last_label s) (s_last_define s) (s_errs s) (s_sess s) (s_printed s) (s_depth s) (s_fwd s) (s_pc s) (s_line s) (s_file s) (s_pos s) (s_mem s) (s_exitc s) (s_erroc s) (s_adl s) (s_iflevel s) (s_exprs s) v (s_opcodes s) (s_curbuf s) (s_bufs s) (s_infiles s) (s_incdirs s) (s_emitlev s) (s_randn s) (s_stdout s) (s_echofiles s) (s_outfiles s) (s_codesize s) (s_datasize s) (s_mintime s) (s_maxtime s).
Definition set_opcodes (v : list opcode) (s : st) : st := mkst
  (s_labels s) (s_defines s) (s_args s) (s_nextid s) (s_reus s) (s_curr_reus s) (s_total_reus s) (s_last_label s) (s_last_define s) (s_errs s) (s_sess s) (s_printed s) (s_depth s) (s_fwd s) (s_pc s) (s_line s) (s_file s) (s_pos s) (s_mem s) (s_exitc s) (s_erroc s) (s_adl s) (s_iflevel s) (s_exprs s) (s_outputs s) v (s_curbuf s) (s_bufs s) (s_infiles s) (s_incdirs s) (s_emitlev s) (s_randn s) (s_stdout s) (s_echofiles s) (s_outfiles s) (s_codesize s) (s_datasize s) (s_mintime s) (s_maxtime s).
Definition set_curbuf (v : Z) (s : st) : st := mkst
  (s_labels s) (s_defines s) (s_args s) (s_nextid s) (s_reus s) (s_curr_reus s) (s_total_reus s) (s_last_label s) (s_last_define s) (s_errs s) (s_sess s) (s_printed s) (s_depth s) (s_fwd s) (s_pc s) (s_line s) (s_file s) (s_pos s) (s_mem s) (s_exitc s) (s_erroc s) (s_adl s) (s_iflevel s) (s_exprs s) (s_outputs s) (s_opcodes s) v (s_bufs s) (s_infiles s) (s_incdirs s) (s_emitlev s) (s_randn s) (s_stdout s) (s_echofiles s) (s_outfiles s) (s_codesize s) (s_datasize s) (s_mintime s) (s_maxtime s).
Definition set_bufs (v : list (option text)) (s : st) : st := mkst
  (s_labels s) (s_defines s) (s_args s) (s_nextid s) (s_reus s) (s_curr_reus s) (s_total_reus s) (s_last_label s) (s_last_define s) (s_errs s) (s_sess s) (s_printed s) (s_depth s) (s_fwd s) (s_pc s) (s_line s) (s_file s) (s_pos s) (s_mem s) (s_exitc s) (s_erroc s) (s_adl s) (s_iflevel s) (s_exprs s) (s_outputs s) (s_opcodes s) (s_curbuf s) v (s_infiles s) (s_incdirs s) (s_emitlev s) (s_randn s) (s_stdout s) (s_echofiles s) (s_outfiles s) (s_codesize s) (s_datasize s) (s_mintime s) (s_maxtime s).
Definition set_infiles (v : list text) (s : st) : st := mkst
  (s_labels s) (s_defines s) (s_args s) (s_nextid s) (s_reus s) (s_curr_reus s) (s_total_reus s) (s_last_label s) (s_last_define s) (s_errs s) (s_sess s) (s_printed s) (s_depth s) (s_fwd s) (s_pc s) (s_line s) (s_file s) (s_pos s) (s_mem s) (s_exitc s) (s_erroc s) (s_adl s) (s_iflevel s) (s_exprs s) (s_outputs s) (s_opcodes s) (s_curbuf s) (s_bufs s) v (s_incdirs s) (s_emitlev s) (s_randn s) (s_stdout s) (s_echofiles s) (s_outfiles s) (s_codesize s) (s_datasize s) (s_mintime s) (s_maxtime s).
Definition set_incdirs (v : list text) (s : st) : st := mkst
  (s_labels s) (s_defines s) (s_args s) (s_nextid s) (s_reus s) (s_curr_reus s) (s_total_reus s) (s_last_label s) (s_last_define s) (s_errs s) (s_sess s) (s_printed s) (s_depth s) (s_fwd s) (s_pc s) (s_line s) (s_file s) (s_pos s) (s_mem s) (s_exitc s) (s_erroc s) (s_adl s) (s_iflevel s) (s_exprs s) (s_outputs s) (s_opcodes s) (s_curbuf s) (s_bufs s) (s_infiles s) v (s_emitlev s) (s_randn s) (s_stdout s) (s_echofiles s) (s_outfiles s) (s_codesize s) (s_datasize s) (s_mintime s) (s_maxtime s).
Definition set_emitlev (v : Z) (s : st) : st := mkst
  (s_labels s) (s_defines s) (s_args s) (s_nextid s) (s_reus s) (s_curr_reus s) (s_total_reus s) (s_last_label s) (s_last_define s) (s_errs s) (s_sess s) (s_printed s) (s_depth s) (s_fwd s) (s_pc s) (s_line s) (s_file s) (s_pos s) (s_mem s) (s_exitc s) (s_erroc s) (s_adl s) (s_iflevel s) (s_exprs s) (s_outputs s) (s_opcodes s) (s_curbuf s) (s_bufs s) (s_infiles s) (s_incdirs s) v (s_randn s) (s_stdout s) (s_echofiles s) (s_outfiles s) (s_codesize s) (s_datasize s) (s_mintime s) (s_maxtime s).
Definition set_randn (v : nat) (s : st) : st := mkst
  (s_labels s) (s_defines s) (s_args s) (s_nextid s) (s_reus s) (s_curr_reus s) (s_total_reus s) (s_last_label s) (s_last_define s) (s_errs s) (s_sess s) (s_printed s) (s_depth s) (s_fwd s) (s_pc s) (s_line s) (s_file s) (s_pos s) (s_mem s) (s_exitc s) (s_erroc s) (s_adl s) (s_iflevel s) (s_exprs s) (s_outputs s) (s_opcodes s) (s_curbuf s) (s_bufs s) (s_infiles s) (s_incdirs s) (s_emitlev s) v (s_stdout s) (s_echofiles s) (s_outfiles s) (s_codesize s) (s_datasize s) (s_mintime s) (s_maxtime s).
Definition set_stdout (v : list text) (s : st) : st := mkst
  (s_labels s) (s_defines s) (s_args s) (s_nextid s) (s_reus s) (s_curr_reus s) (s_total_reus s) (s_last_label s) (s_last_define s) (s_errs s) (s_sess s) (s_printed s) (s_depth s) (s_fwd s) (s_pc s) (s_line s) (s_file s) (s_pos s) (s_mem s) (s_exitc s) (s_erroc s) (s_adl s) (s_iflevel s) (s_exprs s) (s_outputs s) (s_opcodes s) (s_curbuf s) (s_bufs s) (s_infiles s) (s_incdirs s) (s_emitlev s) (s_randn s) v (s_echofiles s) (s_outfiles s) (s_codesize s) (s_datasize s) (s_mintime s) (s_maxtime s).
Definition set_echofiles (v : list (text * bool * text)) (s : st) : st := mkst
  (s_labels s) (s_defines s) (s_args s) (s_nextid s) (s_reus s) (s_curr_reus s) (s_total_reus s) (s_last_label s) (s_last_define s) (s_errs s) (s_sess s) (s_printed s) (s_depth s) (s_fwd s) (s_pc s) (s_line s) (s_file s) (s_pos s) (s_mem s) (s_exitc s) (s_erroc s) (s_adl s) (s_iflevel s) (s_exprs s) (s_outputs s) (s_opcodes s) (s_curbuf s) (s_bufs s) (s_infiles s) (s_incdirs s) (s_emitlev s) (s_randn s) (s_stdout s) v (s_outfiles s) (s_codesize s) (s_datasize s) (s_mintime s) (s_maxtime s).
Definition set_outfiles (v : list (text * list Z)) (s : st) : st := mkst
  (s_labels s) (s_defines s) (s_args s) (s_nextid s) (s_reus s) (s_curr_reus s) (s_total_reus s) (s_last_label s) (s_last_define s) (s_errs s) (s_sess s) (s_printed s) (s_depth s) (s_fwd s) (s_pc s) (s_line s) (s_file s) (s_pos s) (s_mem s) (s_exitc s) (s_erroc s) (s_adl s) (s_iflevel s) (s_exprs s) (s_outputs s) (s_opcodes s) (s_curbuf s) (s_bufs s) (s_infiles s) (s_incdirs s) (s_emitlev s) (s_randn s) (s_stdout s) (s_echofiles s) v (s_codesize s) (s_datasize s) (s_mintime s) (s_maxtime s).
Definition set_codesize (v : Z) (s : st) : st := mkst
  (s_labels s) (s_defines s) (s_args s) (s_nextid s) (s_reus s) (s_curr_reus s) (s_total_reus s) (s_last_label s) (s_last_define s) (s_errs s) (s_sess s) (s_printed s) (s_depth s) (s_fwd s) (s_pc s) (s_line s) (s_file s) (s_pos s) (s_mem s) (s_exitc s) (s_erroc s) (s_adl s) (s_iflevel s) (s_exprs s) (s_outputs s) (s_opcodes s) (s_curbuf s) (s_bufs s) (s_infiles s) (s_incdirs s) (s_emitlev s) (s_randn s) (s_stdout s) (s_echofiles s) (s_outfiles s) v (s_datasize s) (s_mintime s) (s_maxtime s).
Definition set_datasize (v : Z) (s : st) : st := mkst
  (s_labels s) (s_defines s) (s_args s) (s_nextid s) (s_reus s) (s_curr_reus s) (s_total_reus s) (s_last_label s) (s_last_define s) (s_errs s) (s_sess s) (s_printed s) (s_depth s) (s_fwd s) (s_pc s) (s_line s) (s_file s) (s_pos s) (s_mem s) (s_exitc s) (s_erroc s) (s_adl s) (s_iflevel s) (s_exprs s) (s_outputs s) (s_opcodes s) (s_curbuf s) (s_bufs s) (s_infiles s) (s_incdirs s) (s_emitlev s) (s_randn s) (s_stdout s) (s_echofiles s) (s_outfiles s) (s_codesize s) v (s_mintime s) (s_maxtime s).
Definition set_mintime (v : Z) (s : st) : st := mkst
  (s_labels s) (s_defines s) (s_args s) (s_nextid s) (s_reus s) (s_curr_reus s) (s_total_reus s) (s_last_label s) (s_last_define s) (s_errs s) (s_sess s) (s_printed s) (s_depth s) (s_fwd s) (s_pc s) (s_line s) (s_file s) (s_pos s) (s_mem s) (s_exitc s) (s_erroc s) (s_adl s) (s_iflevel s) (s_exprs s) (s_outputs s) (s_opcodes s) (s_curbuf s) (s_bufs s) (s_infiles s) (s_incdirs s) (s_emitlev s) (s_randn s) (s_stdout s) (s_echofiles s) (s_outfiles s) (s_codesize s) (s_datasize s) v (s_maxtime s).
Definition set_maxtime (v : Z) (s : st) : st := mkst
  (s_labels s) (s_defines s) (s_args s) (s_nextid s) (s_reus s) (s_curr_reus s) (s_total_reus s) (s_last_label s) (s_last_define s) (s_errs s) (s_sess s) (s_printed s) (s_depth s) (s_fwd s) (s_pc s) (s_line s) (s_file s) (s_pos s) (s_mem s) (s_exitc s) (s_erroc s) (s_adl s) (s_iflevel s) (s_exprs s) (s_outputs s) (s_opcodes s) (s_curbuf s) (s_bufs s) (s_infiles s) (s_incdirs s) (s_emitlev s) (s_randn s) (s_stdout s) (s_echofiles s) (s_outfiles s) (s_codesize s) (s_datasize s) (s_mintime s) v.

(** Why an execution is undefined in C++. *)
Inductive ub :=
  | UB_overflow            (* signed overflow, or a shift count outside 0..31 *)
  | UB_divide              (* / or % of an expression by zero, or INT_MIN by -1 *)
  | UB_oob                 (* access outside an array or string *)
  | UB_null                (* NULL dereference *)
  | UB_dangling            (* use of a freed define *)
  | UB_uninit              (* read of an uninitialised variable *)
  | UB_outbuf.             (* write outside the output buffer *)

(** Outcome of a C++ function: normal return, [exit(code)], undefined behaviour, or the
    model's recursion fuel ran out. *)
Inductive res (A : Type) :=
  | Ok (a : A) (s : st) | Exit (code : Z) (s : st) | Undef (w : ub) | NoFuel.
Arguments Ok {A}. Arguments Exit {A}. Arguments Undef {A}. Arguments NoFuel {A}.

Definition M (A : Type) := st -> res A.
Definition ret {A} (a : A) : M A := fun s => Ok a s.
Definition bind {A B} (m : M A) (k : A -> M B) : M B := fun s =>
  match m s with
  | Ok a s' => k a s' | Exit c s' => Exit c s' | Undef w => Undef w | NoFuel => NoFuel
  end.
Definition undef {A} (w : ub) : M A := fun _ => Undef w.
Definition nofuel {A} : M A := fun _ => NoFuel.
Definition get {A} (f : st -> A) : M A := fun s => Ok (f s) s.
Definition upd (f : st -> st) : M unit := fun s => Ok tt (f s).
Definition whenM (b : bool) (m : M unit) : M unit := if b then m else ret tt.

Declare Scope m_scope.
Delimit Scope m_scope with m.
Notation "x <- m ;; k" := (bind m (fun x => k))
  (at level 61, m at next level, right associativity) : m_scope.
Notation "'let*' ' p := m 'in' k" := (bind m (fun p => k))
  (at level 61, p pattern, m at next level, right associativity) : m_scope.
Notation "m ;;; k" := (bind m (fun _ => k))
  (at level 61, right associativity) : m_scope.
Global Open Scope m_scope.

