(** Model of main.cpp: the options, the two passes and the output.  The listing (-T), the
    statistics printed by -C and -S, and the assembly time are not modelled. *)
From Verif Require Import Base State UtilsModel ErrorsModel StorageModel ParserModel PassTwoModel
  PassOneModel OpcodeTables ExportModel Knot.

(** storage.cpp:108-131 [write_defines_callback]: a define without parameters whose contents
    have a value is listed. *)
Fixpoint lab_defines (R : fns) (t : list (text * define)) (l : list (text * Z)) : M (list (text * Z)) :=
  match t with
  | [] => ret l
  | (_, d) :: t' =>
    l' <- match d_args d, d_contents d with
          | [], Some c =>
            v <- parse_num R c ;;
            ret (match v with Some v => lab_insert (d_name d, v) l | None => l end)
          | _, _ => ret l
          end ;;
    lab_defines R t' l'
  end.
(** storage.cpp:42-82 [write_labels]: the file can always be opened. *)
Definition lab_labels (t : list (text * label)) : list (text * Z) :=
  fold_left (fun l e => lab_insert (l_name (snd e), l_value (snd e)) l) t [].
Definition write_labels (R : fns) (filename : text) : M unit :=
  n <- start_session ;;
  t <- get s_labels ;; d <- get s_defines ;;
  l <- lab_defines R d (lab_labels t) ;;
  end_session n ;;;
  o <- get s_outfiles ;;
  upd (set_outfiles ((filename, concat (map lab_line l)) :: o)).

(** main.cpp:47-67: the variables reset for a run. *)
Definition reset_run (s : st) : st :=
  set_exitc EXIT_NORMAL (set_pc 0 (set_codesize 0 (set_datasize 0 (set_mintime 0 (set_maxtime 0
  (set_last_label None (set_erroc false (set_line 0 (set_curbuf 0 (set_curr_reus 0
  (set_total_reus 0 (set_exprs [] (set_outputs [] (set_pos 0 s)))))))))))))).

(** main.cpp:91-108: the directory of the input file, if its path is absolute. *)
Fixpoint dir_of (s : text) : option text :=
  match s with
  | [] => None
  | c :: s' =>
    match dir_of s' with
    | Some r => Some (c :: r)
    | None => if (c =? 47) || (c =? 92) then Some [] else None
    end
  end.
Definition input_dir (cwd input : text) : text :=
  if is_abs_path input then
    match input with
    | [] => []
    | c :: s => match dir_of s with Some r => c :: r | None => [] end
    end
  else cwd.

(** main.cpp:37-219 [run_assembly].  [src] is the text of the -V option, or [None] to read the
    input file.  [C] has [c_cwd] set as main.cpp:91-108 leaves temp_path.  The result is the
    exit status. *)
Definition run_assembly (C : cfg) (R : fns) (src : option text) (output : text) : M Z :=
  upd reset_run ;;;
  input <- get s_file ;;
  match (match src with
         | Some t => Some t
         | None => match c_files C input with Some b => get_file_contents b | None => None end
         end) with
  | None => ret EXIT_FATAL_ERROR
  | Some t =>
    dirs <- get s_incdirs ;;
    upd (set_incdirs (c_cwd C :: dirs)) ;;;
    n <- start_session ;;
    run_first_pass C R (until_nul t) ;;;
    replay_session C n true ;;;
    end_session n ;;;
    upd (set_incdirs []) ;;;
    whenM (c_symtable C || c_normal C || c_list C)
      (n <- start_session ;;
       run_second_pass C R ;;;
       replay_session C n false ;;;
       end_session n ;;;
       whenM (c_symtable C)
         (n <- start_session ;;
          write_labels R (change_extension output (zs "lab")) ;;;
          replay_session C n true ;;;
          end_session n) ;;;
       whenM (c_normal C)
         (n <- start_session ;;
          mem <- get s_mem ;; pos <- get s_pos ;;
          write_file C mem pos output ;;;
          replay_session C n true ;;;
          end_session n) ;;;
       upd (set_infiles [])) ;;;
    get s_exitc
  end.

(** What the operating system provides. *)
Record world := mkworld {
  w_files : text -> option (list Z);
  w_rand : nat -> Z;
  w_cwd : text;
  w_md5 : list Z -> list Z;
  w_wrap : bool                 (* how the compiled program treats signed overflow *) }.

(** The options read so far, main.cpp:254-287.  [a_input] is [None] while curr_input_file is
    starting_input_file. *)
Record args := mkargs {
  a_normal : bool; a_list : bool; a_counter : bool; a_symtable : bool; a_ez80 : bool;
  a_case : bool; a_input : option text; a_output : option text; a_line : option text;
  a_dirs : list text;
  a_defs : option (list (text * define))      (* define_table, once initialised *) }.
Definition args0 : args := mkargs true false false false false false None None None [] None.

Definition curr_file (a : args) : text := match a_input a with Some f => f | None => zs "Commandline" end.

(** The state at program start (static initialisers). *)
Definition init_state (ez80 : bool) (file : text) (dirs : list text) (defs : list (text * define)) : st :=
  mkst [] defs [] 0 [] 0 0 None None [] 0 [] 0 false 0 0 file 0 [] 0 false false 0 [] []
    (if ez80 then opcode_list_ez80 else opcode_list) 0 (repeat None 10) [] dirs 0 0 [] [] [] 0 0 0 0.
Definition mkconf (w : world) (a : args) : cfg :=
  mkcfg (a_normal a) (a_counter a) (a_symtable a) (a_list a) (a_ez80 a) (a_case a)
    (w_files w) (w_rand w) (input_dir (w_cwd w) (curr_file a)) (w_md5 w) (w_wrap w).

(** C [strtok] with the delimiters of main.cpp:330: semicolon and comma. *)
Fixpoint split_dirs (cur s : text) : list text :=
  match s with
  | [] => match cur with [] => [] | _ => [rev cur] end
  | c :: s' =>
    if (c =? 59) || (c =? 44)
    then match cur with [] => split_dirs [] s' | _ => rev cur :: split_dirs [] s' end
    else split_dirs (c :: cur) s'
  end.

(** Outcome of reading the options: go on, leave with a status, or undefined behaviour. *)
Inductive argres := AGo (a : args) | AExit (code : Z) | AUndef (w : ub).

(** main.cpp:343-375: -D.  The define is entered while case_sensitive is still false.  Without
    an '=' the C++ steps over the end of the argument and reads on. *)
Definition arg_define (w : world) (a : args) (p : text) : argres :=
  let defs := match a_defs a with Some d => d | None => init_defines (curr_file a) end in
  let C := mkcfg true false false false false false (w_files w) (w_rand w) [] (w_md5 w) (w_wrap w) in
  let s := init_state false (curr_file a) [] defs in
  match (r <- read_expr p (zs "=") ;;
         d <- add_define C (rx_word r) true ;;
         match d with
         | None => undef UB_null
         | Some (d, _) =>
           match rx_ptr r with
           | [] => undef UB_oob
           | _ :: q => set_contents d (match skip_ws q with [] => zs "1" | _ => q end)
           end
         end) s with
  | Ok _ s' => AGo (mkargs (a_normal a) (a_list a) (a_counter a) (a_symtable a) (a_ez80 a) (a_case a)
                      (a_input a) (a_output a) (a_line a) (a_dirs a) (Some (s_defines s')))
  | Exit c _ => AExit c
  | Undef u => AUndef u
  | NoFuel => AUndef UB_uninit
  end.

(** main.cpp:279-421: the options in order.  Options without the argument they need print a
    message and have no effect, except -V. *)
Fixpoint read_args (w : world) (a : args) (l : list text) : argres :=
  match l with
  | [] => AGo a
  | arg :: l' =>
    if hd0 arg =? 45 then
      let o := hd1 arg in
      if o =? 79 then
        read_args w (mkargs false (a_list a) (a_counter a) (a_symtable a) (a_ez80 a) (a_case a)
          (a_input a) (a_output a) (a_line a) (a_dirs a) (a_defs a)) l'
      else if o =? 84 then
        read_args w (mkargs (a_normal a) true (a_counter a) (a_symtable a) (a_ez80 a) (a_case a)
          (a_input a) (a_output a) (a_line a) (a_dirs a) (a_defs a)) l'
      else if o =? 67 then
        read_args w (mkargs (a_normal a) (a_list a) true (a_symtable a) (a_ez80 a) (a_case a)
          (a_input a) (a_output a) (a_line a) (a_dirs a) (a_defs a)) l'
      else if o =? 76 then
        read_args w (mkargs (a_normal a) (a_list a) (a_counter a) true (a_ez80 a) (a_case a)
          (a_input a) (a_output a) (a_line a) (a_dirs a) (a_defs a)) l'
      else if (o =? 83) || (o =? 78) then read_args w a l'
      else if o =? 69 then
        read_args w (mkargs (a_normal a) (a_list a) (a_counter a) (a_symtable a) true (a_case a)
          (a_input a) (a_output a) (a_line a) (a_dirs a) (a_defs a)) l'
      else if o =? 65 then
        read_args w (mkargs (a_normal a) (a_list a) (a_counter a) (a_symtable a) (a_ez80 a) true
          (a_input a) (a_output a) (a_line a) (a_dirs a) (a_defs a)) l'
      else if o =? 73 then
        let go (d : text) :=
          mkargs (a_normal a) (a_list a) (a_counter a) (a_symtable a) (a_ez80 a) (a_case a)
            (a_input a) (a_output a) (a_line a) (a_dirs a ++ split_dirs [] d) (a_defs a) in
        match skipn 2 arg, l' with
        | (_ :: _) as d, _ => read_args w (go d) l'
        | [], d :: l'' => read_args w (go d) l''
        | [], [] => AGo a
        end
      else if o =? 68 then
        match skipn 2 arg, l' with
        | (_ :: _) as d, _ =>
          match arg_define w a d with AGo a => read_args w a l' | r => r end
        | [], d :: l'' =>
          match arg_define w a d with AGo a => read_args w a l'' | r => r end
        | [], [] => AGo a
        end
      else if o =? 86 then
        let go (d : text) :=
          mkargs (a_normal a) (a_list a) (a_counter a) (a_symtable a) (a_ez80 a) (a_case a)
            (Some (zs "-v")) (Some (change_extension (zs "-v") (zs "bin"))) (Some (d ++ [10]))
            (a_dirs a) (a_defs a) in
        match skipn 2 arg, l' with
        | (_ :: _) as d, _ => read_args w (go d) l'
        | [], d :: l'' => read_args w (go d) l''
        | [], [] => AExit EXIT_FATAL_ERROR
        end
      else if (o =? 72) || (o =? 104) then AExit EXIT_NORMAL
      else AExit 1
    else
      match a_input a, a_output a with
      | None, _ =>
        read_args w (mkargs (a_normal a) (a_list a) (a_counter a) (a_symtable a) (a_ez80 a) (a_case a)
          (Some arg) (a_output a) (a_line a) (a_dirs a) (a_defs a)) l'
      | Some _, None =>
        read_args w (mkargs (a_normal a) (a_list a) (a_counter a) (a_symtable a) (a_ez80 a) (a_case a)
          (a_input a) (Some arg) (a_line a) (a_dirs a) (a_defs a)) l'
      | Some _, Some _ => read_args w a l'
      end
  end.

(** Outcome of the program: status and the files written, oldest first. *)
Inductive outcome := Done (status : Z) (files : list (text * list Z)) (s : option st) | Crash (w : ub) | OutOfFuel.

(** main.cpp:254-475 [main]; [argv] is without the program name.  [fuel] bounds the nesting of
    calls. *)
Definition main (fuel : nat) (w : world) (argv : list text) : outcome :=
  match argv with
  | [] => Done EXIT_NORMAL [] None
  | _ =>
    match read_args w args0 argv with
    | AExit c => Done c [] None
    | AUndef u => Crash u
    | AGo a =>
      match a_input a with
      | None => Done EXIT_FATAL_ERROR [] None
      | Some input =>
        let output := match a_output a with Some o => o | None => change_extension input (zs "bin") end in
        let defs := match a_defs a with Some d => d | None => init_defines input end in
        let C := mkconf w a in
        match run_assembly C (knot C fuel) (a_line a) output (init_state (a_ez80 a) input (a_dirs a) defs) with
        | Ok c s => Done c (rev (s_outfiles s)) (Some s)
        | Exit c s => Done c (rev (s_outfiles s)) (Some s)
        | Undef u => Crash u
        | NoFuel => OutOfFuel
        end
      end
    end
  end.
