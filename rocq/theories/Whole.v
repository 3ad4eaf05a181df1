(** Induction over the whole assembler: a property of commands that holds of the primitive
    steps, and is kept by sequencing and case distinction, holds of every function of the two
    passes. *)
From Verif Require Import Base BaseProofs State UtilsModel ErrorsModel StorageModel ParserModel PassTwoModel
  BitmapModel PreopModel PassOneModel DirectiveModel Knot ExportModel MainModel MonadProofs.

(** Assignments to fields that no whole-assembler property of this development is about. *)
Inductive plain : (st -> st) -> Prop :=
  | plain_last_label v : plain (set_last_label v)
  | plain_last_define v : plain (set_last_define v)
  | plain_reus v : plain (set_reus v)
  | plain_curr_reus v : plain (set_curr_reus v)
  | plain_total_reus v : plain (set_total_reus v)
  | plain_depth v : plain (set_depth v)
  | plain_fwd v : plain (set_fwd v)
  | plain_line v : plain (set_line v)
  | plain_file v : plain (set_file v)
  | plain_pos v : plain (set_pos v)
  | plain_pc v : plain (set_pc v)
  | plain_adl v : plain (set_adl v)
  | plain_iflevel v : plain (set_iflevel v)
  | plain_exprs v : plain (set_exprs v)
  | plain_outputs v : plain (set_outputs v)
  | plain_opcodes v : plain (set_opcodes v)
  | plain_curbuf v : plain (set_curbuf v)
  | plain_bufs v : plain (set_bufs v)
  | plain_incdirs v : plain (set_incdirs v)
  | plain_infiles v : plain (set_infiles v)
  | plain_emitlev v : plain (set_emitlev v)
  | plain_randn v : plain (set_randn v)
  | plain_stdout v : plain (set_stdout v)
  | plain_echofiles v : plain (set_echofiles v)
  | plain_codesize v : plain (set_codesize v)
  | plain_datasize v : plain (set_datasize v)
  | plain_mintime v : plain (set_mintime v)
  | plain_maxtime v : plain (set_maxtime v).
Create HintDb whole.
Global Hint Constructors plain : whole.

(** [I n m] is a property of commands run while session [n] is the innermost one, and
    [Q n m c] of commands that run inside session [m], opened inside session [n], and close it.
    The primitive steps have the properties. *)
Record closed (C : cfg) (I : Z -> forall A : Type, M A -> Prop) (Q : Z -> Z -> forall A : Type, M A -> Prop)
  : Prop := mkclosed {
  cI_ret : forall n A (a : A), I n _ (ret a);
  cI_bind : forall n A B (m : M A) (k : A -> M B), I n _ m -> (forall a, I n _ (k a)) -> I n _ (bind m k);
  cI_session : forall n A (k : Z -> M A), (forall m, Q n m _ (k m)) -> I n _ (bind start_session k);
  cI_replay : forall n f, I n _ (replay_session C n f);
  cQ_bind : forall n m A B (c : M A) (k : A -> M B), I m _ c -> (forall a, Q n m _ (k a)) -> Q n m _ (bind c k);
  cQ_after : forall n m A B (c : M A) (k : A -> M B), Q n m _ c -> (forall a, I n _ (k a)) -> Q n m _ (bind c k);
  cQ_end : forall n m, Q n m _ (end_session m);
  cI_stale : forall n m f A (a : A), I n _ (replay_session C m f ;;; (end_session m ;;; ret a));
  cI_nofuel : forall n A, I n _ (@nofuel A);
  cI_undef : forall n A w, w <> UB_divide -> I n _ (@undef A w);
  cQ_undef : forall n m A w, w <> UB_divide -> Q n m _ (@undef A w);
  cI_get : forall n A (f : st -> A), I n _ (get f);
  cI_plain : forall n f, plain f -> I n _ (upd f);
  cI_problem : forall n w code, I n _ (set_problem w code);
  cI_raise : forall k n, 1 <= n <= 3 -> I k _ (raise_exit n);
  cI_erroc : forall n, I n _ (upd (set_erroc true));
  cI_write : forall n v, I n _ (write_out v);
  cI_get_define : forall n r, I n _ (get_define r);
  cI_put_define : forall n r d, I n _ (put_define r d);
  cI_add_define : forall n name l, I n _ (add_define C name l);
  cI_remove_define : forall n name, I n _ (remove_define C name);
  cI_set_define : forall n e r t b, (forall t, I n _ (e t)) -> I n _ (set_define C e r t b);
  cI_add_label : forall n name v, I n _ (add_label C name v);
  cI_label_value : forall n k v, I n _ (set_label_value k v);
  cI_add_arg_set : forall n, I n _ add_arg_set;
  cI_add_arg : forall n name v id, I n _ (add_arg C name v id);
  cI_remove_arg_set : forall n id, I n _ (remove_arg_set id);
  cI_apply : forall k o total n, is_divmod o && (n =? 0) = false ->
  is_divmod o && (total =? INT_MIN) && (n =? -1) = false -> I k _ (apply_op C o total n) }.

Section Whole.
Variable C : cfg.
Variable I : Z -> forall A : Type, M A -> Prop.
Variable Q : Z -> Z -> forall A : Type, M A -> Prop.
Hypothesis HP : closed C I Q.
Arguments I _ {A}.
Arguments Q _ _ {A}.
(** In any session. *)
Definition P {A : Type} (m : M A) : Prop := forall n, I n m.
Lemma P_ret A (a : A) : P (ret a).
Proof. intros n. apply (cI_ret _ _ _ HP). Qed.
Lemma P_bind A B (m : M A) (k : A -> M B) : P m -> (forall a, P (k a)) -> P (bind m k).
Proof. intros Hm Hk n. apply (cI_bind _ _ _ HP); [apply Hm|intros; apply Hk]. Qed.
Lemma P_nofuel A : P (@nofuel A).
Proof. intros n. apply (cI_nofuel _ _ _ HP). Qed.
Lemma P_undef A w : w <> UB_divide -> P (@undef A w).
Proof. intros H n. now apply (cI_undef _ _ _ HP). Qed.
Lemma P_get A (f : st -> A) : P (get f).
Proof. intros n. apply (cI_get _ _ _ HP). Qed.
Lemma P_plain f : plain f -> P (upd f).
Proof. intros H n. now apply (cI_plain _ _ _ HP). Qed.
Lemma P_problem w c : P (set_problem w c).
Proof. intros n. apply (cI_problem _ _ _ HP). Qed.
Lemma P_raise n : 1 <= n <= 3 -> P (raise_exit n).
Proof. intros H k. now apply (cI_raise _ _ _ HP). Qed.
Lemma P_erroc : P (upd (set_erroc true)).
Proof. intros n. apply (cI_erroc _ _ _ HP). Qed.
Lemma P_write v : P (write_out v).
Proof. intros n. apply (cI_write _ _ _ HP). Qed.
Lemma P_get_define r : P (get_define r).
Proof. intros n. apply (cI_get_define _ _ _ HP). Qed.
Lemma P_put_define r d : P (put_define r d).
Proof. intros n. apply (cI_put_define _ _ _ HP). Qed.
Lemma P_add_define name l : P (add_define C name l).
Proof. intros n. apply (cI_add_define _ _ _ HP). Qed.
Lemma P_remove_define name : P (remove_define C name).
Proof. intros n. apply (cI_remove_define _ _ _ HP). Qed.
Lemma P_set_define e r t b : (forall t, P (e t)) -> P (set_define C e r t b).
Proof. intros H n. apply (cI_set_define _ _ _ HP). intros; apply H. Qed.
Lemma P_add_label name v : P (add_label C name v).
Proof. intros n. apply (cI_add_label _ _ _ HP). Qed.
Lemma P_label_value k v : P (set_label_value k v).
Proof. intros n. apply (cI_label_value _ _ _ HP). Qed.
Lemma P_add_arg_set : P add_arg_set.
Proof. intros n. apply (cI_add_arg_set _ _ _ HP). Qed.
Lemma P_add_arg name v id : P (add_arg C name v id).
Proof. intros n. apply (cI_add_arg _ _ _ HP). Qed.
Lemma P_remove_arg_set id : P (remove_arg_set id).
Proof. intros n. apply (cI_remove_arg_set _ _ _ HP). Qed.
Lemma P_apply o total n : is_divmod o && (n =? 0) = false ->
  is_divmod o && (total =? INT_MIN) && (n =? -1) = false -> P (apply_op C o total n).
Proof. intros H H1 k. now apply (cI_apply _ _ _ HP). Qed.
Lemma P_session A (k : Z -> M A) : (forall n m, Q n m (k m)) -> P (bind start_session k).
Proof. intros H n. apply (cI_session _ _ _ HP). intros; apply H. Qed.

(** What is assumed of the functions called through the record. *)
Record fP (R : fns) : Prop := mkfP {
  fP_full : forall p d, P (f_full R p d);
  fP_eval : forall p, P (f_eval R p);
  fP_expand : forall d p l, P (f_expand R d p l);
  fP_preop : forall p, P (f_preop R p);
  fP_if : forall p, P (f_if R p);
  fP_line : forall p, P (f_line R p);
  fP_pass : forall p, P (f_pass R p);
  fP_emit : forall p t, P (f_emit R p t) }.

Ltac p1 :=
  match goal with
  | |- P (ret _) => apply P_ret
  | |- P nofuel => apply P_nofuel
  | |- P (undef _) => apply P_undef; discriminate
  | |- P (get _) => apply P_get
  | |- P (set_problem _ _) => apply P_problem
  | |- P (upd (set_erroc true)) => apply P_erroc
  | |- P (upd _) => apply P_plain; solve [auto with whole]
  | |- P (raise_exit _) => apply P_raise; unfold EXIT_WARNINGS, EXIT_ERRORS, EXIT_FATAL_ERROR; lia
  | |- P (write_out _) => apply P_write
  | |- P (get_define _) => apply P_get_define
  | |- P (put_define _ _) => apply P_put_define
  | |- P (add_define _ _ _) => apply P_add_define
  | |- P (remove_define _ _) => apply P_remove_define
  | |- P (set_define _ _ _ _ _) => apply P_set_define
  | |- P (add_label _ _ _) => apply P_add_label
  | |- P (set_label_value _ _) => apply P_label_value
  | |- P add_arg_set => apply P_add_arg_set
  | |- P (add_arg _ _ _ _) => apply P_add_arg
  | |- P (remove_arg_set _) => apply P_remove_arg_set
  | |- P (bind start_session _) => apply P_session; intros ? ?
  | |- P (bind _ _) => apply P_bind; [|intros ?]
  | |- P (whenM ?b _) => unfold whenM; destruct b
  | H : fP ?R |- P (f_full ?R _ _) => apply (fP_full _ H)
  | H : fP ?R |- P (f_eval ?R _) => apply (fP_eval _ H)
  | H : fP ?R |- P (f_expand ?R _ _ _) => apply (fP_expand _ H)
  | H : fP ?R |- P (f_preop ?R _) => apply (fP_preop _ H)
  | H : fP ?R |- P (f_if ?R _) => apply (fP_if _ H)
  | H : fP ?R |- P (f_line ?R _) => apply (fP_line _ H)
  | H : fP ?R |- P (f_pass ?R _) => apply (fP_pass _ H)
  | H : fP ?R |- P (f_emit ?R _ _) => apply (fP_emit _ H)
  | |- P (match ?x with _ => _ end) => destruct x
  | |- P (let '_ := ?x in _) => destruct x
  end.
(** Inside a session. *)
Ltac q1 :=
  match goal with
  | |- I ?n (replay_session _ ?n _) => apply (cI_replay _ _ _ HP)
  | |- I _ (bind start_session _) => apply (cI_session _ _ _ HP); intros ?
  | |- I _ (bind _ _) => apply (cI_bind _ _ _ HP); [|intros ?]
  | |- I _ (whenM ?b _) => unfold whenM; destruct b
  | |- I _ (match ?x with _ => _ end) => destruct x
  | |- I _ (let '_ := ?x in _) => destruct x
  | |- I ?n ?c => let H := fresh in assert (H : P c); [|exact (H n)]
  | |- Q _ ?m (end_session ?m) => apply (cQ_end _ _ _ HP)
  | |- Q _ ?m (bind (end_session ?m) _) =>
      apply (cQ_after _ _ _ HP); [apply (cQ_end _ _ _ HP)|intros ?]
  | |- Q _ _ (undef _) => apply (cQ_undef _ _ _ HP); discriminate
  | |- Q _ _ (bind _ _) => apply (cQ_bind _ _ _ HP); [|intros ?]
  | |- Q _ _ (whenM ?b _) => unfold whenM; destruct b
  | |- Q _ _ (match ?x with _ => _ end) => destruct x
  | |- Q _ _ (let '_ := ?x in _) => destruct x
  end.
Ltac ps := repeat (cbv beta zeta; first [p1 | solve [auto with whole] | q1 | progress intros]).

Lemma set_error_P c : P (set_error c).
Proof. apply P_problem. Qed.
Lemma set_warning_P c : P (set_warning c).
Proof. apply P_problem. Qed.
Lemma show_warning_P : P show_warning.
Proof. unfold show_warning. ps. Qed.
Lemma show_error_P : P show_error.
Proof. unfold show_error. ps. Qed.
Lemma show_fatal_error_P : P show_fatal_error.
Proof. unfold show_fatal_error. ps. Qed.
Hint Resolve set_error_P set_warning_P show_warning_P show_error_P show_fatal_error_P : whole.
Lemma int_res_P z : P (int_res C z).
Proof. unfold int_res. ps. Qed.
Lemma set_contents_P r t : P (set_contents r t).
Proof. unfold set_contents. ps. Qed.
Hint Resolve int_res_P set_contents_P : whole.
Lemma search_labels_P n : P (search_labels C n).
Proof. unfold search_labels. ps. Qed.
Lemma search_local_defines_P n : P (search_local_defines C n).
Proof. unfold search_local_defines. ps. Qed.
Lemma search_defines_P n l : P (search_defines C n l).
Proof. unfold search_defines. ps. Qed.
Lemma add_reusable_P : P add_reusable.
Proof. unfold add_reusable. ps. Qed.
Lemma get_curr_reusable_P : P get_curr_reusable.
Proof. unfold get_curr_reusable. ps. Qed.
Lemma set_curr_reusable_P i : P (set_curr_reusable i).
Proof. unfold set_curr_reusable. ps. Qed.
Lemma search_reusables_P i : P (search_reusables i).
Proof. unfold search_reusables. ps. Qed.
Hint Resolve search_labels_P search_local_defines_P search_defines_P add_reusable_P get_curr_reusable_P
  set_curr_reusable_P search_reusables_P : whole.
Lemma conv_P b c s e : P (conv_generic b c s e).
Proof. unfold conv_generic. ps. Qed.
Hint Resolve conv_P : whole.
Lemma conv_hex_P s e : P (conv_hex s e).
Proof. apply conv_P. Qed.
Lemma conv_dec_P s e : P (conv_dec s e).
Proof. apply conv_P. Qed.
Lemma conv_bin_P s e : P (conv_bin s e).
Proof. apply conv_P. Qed.
Lemma next_rand_P : P (next_rand C).
Proof. unfold next_rand. ps. Qed.
Hint Resolve conv_hex_P conv_dec_P conv_bin_P next_rand_P : whole.
Lemma char_escape_P c : P (char_escape C c).
Proof. unfold char_escape. ps. Qed.
Lemma read_expr'_P b p d : P (read_expr' b p d).
Proof. unfold read_expr'. ps. Qed.
Hint Resolve char_escape_P read_expr'_P : whole.
Lemma read_expr_P p d : P (read_expr p d).
Proof. apply read_expr'_P. Qed.
Hint Resolve read_expr_P : whole.
Lemma extract_arg_P p e : P (extract_arg p e).
Proof. unfold extract_arg. ps. Qed.
Lemma dec_depth_P : P dec_depth.
Proof. unfold dec_depth. ps. Qed.
Lemma get_op_P f : forall d p, P (get_op f d p).
Proof. induction f; intros; cbn [get_op]; ps. Qed.
Hint Resolve extract_arg_P dec_depth_P get_op_P : whole.
Lemma fill_args_P l : forall id, P (fill_args C l id).
Proof. induction l; intros; cbn [fill_args]; ps. Qed.
Lemma write_all_P l : P (write_all l).
Proof. induction l; cbn [write_all]; ps. Qed.
Lemma write_n_P n v : P (write_n n v).
Proof. induction n; cbn [write_n]; ps. Qed.
Lemma add_pc_P n : P (add_pc n).
Proof. unfold add_pc. ps. Qed.
Lemma add_datasize_P n : P (add_datasize n).
Proof. unfold add_datasize. ps. Qed.
Lemma add_line_P n : P (add_line n).
Proof. unfold add_line. ps. Qed.
Lemma print_P t : P (print t).
Proof. unfold print. ps. Qed.
Lemma show_define_P r : P (show_define r).
Proof. unfold show_define. pose proof print_P. ps. Qed.
Hint Resolve fill_args_P write_all_P write_n_P add_pc_P add_datasize_P add_line_P print_P show_define_P : whole.
Lemma write_arg_P v t z o : P (write_arg C v t z o).
Proof. unfold write_arg. ps. Qed.
Lemma emit_P v : P (emit v).
Proof. unfold emit. ps. Qed.
Hint Resolve write_arg_P emit_P : whole.
Lemma emit_all_P l : P (emit_all l).
Proof. induction l; cbn [emit_all]; ps. Qed.
Lemma emit_chars_P l : P (emit_chars C l).
Proof. induction l; cbn [emit_chars]; ps. Qed.
Hint Resolve emit_all_P emit_chars_P : whole.
Lemma opt_P A w (o : option A) : w <> UB_divide -> P (opt w o).
Proof. intros. destruct o; simpl; [apply P_ret|apply P_undef; assumption]. Qed.
Hint Extern 1 (P (opt _ _)) => apply opt_P; discriminate : whole.
Lemma mapM_P A B (f : A -> M B) l : (forall a, P (f a)) -> P (mapM f l).
Proof. intros H. induction l; cbn [mapM]; ps. Qed.
Lemma bits_at_P b r row i : P (bits_at b r row i).
Proof. unfold bits_at. ps. Qed.
Hint Resolve bits_at_P : whole.
Lemma pixel_bytes_P n : forall b r row i acc, P (pixel_bytes n b r row i acc).
Proof. induction n; intros; cbn [pixel_bytes]; ps. Qed.
Hint Resolve pixel_bytes_P : whole.
Lemma pixel_P b p r row bit : P (pixel b p r row bit).
Proof. unfold pixel. ps. Qed.
Hint Resolve pixel_P : whole.
Lemma cell_P b p r sh m i row col : P (cell b p r sh m i row col).
Proof. unfold cell. ps. Qed.
Hint Resolve cell_P : whole.
Lemma rows_P b p r sh m i w n l : P (mapM (fun j => bind (mapM (cell b p r sh m i (r_h r - 1 - j)) w)
  (fun l => ret (pad_row n (0, 1) l))) l).
Proof. apply mapM_P. intros. apply P_bind; [apply mapM_P; intros; apply cell_P|intros; apply P_ret]. Qed.
Hint Resolve rows_P : whole.
Lemma label_with_P b s v : P (label_with C b s v).
Proof. unfold label_with. ps. Qed.
Lemma option_loop_P f : forall e p, P (option_loop C f e p).
Proof. induction f; intros; cbn [option_loop]; ps. Qed.
Lemma arg_defs_loop_P f : forall r e p, P (arg_defs_loop C f r e p).
Proof. induction f; intros; cbn [arg_defs_loop]; ps. Qed.
Hint Resolve label_with_P option_loop_P arg_defs_loop_P : whole.
Lemma parse_arg_defs_P p r : P (parse_arg_defs C p r).
Proof. unfold parse_arg_defs. ps. Qed.
Lemma full_path_P n : P (full_path C n).
Proof. unfold full_path. ps. Qed.
Hint Resolve parse_arg_defs_P full_path_P : whole.
Lemma preop_import_P p : P (preop_import C p).
Proof. unfold preop_import. ps. Qed.
Hint Resolve preop_import_P : whole.
Lemma match_pattern_P base pat : forall p a, P (match_pattern base pat p a).
Proof. induction pat; intros; cbn [match_pattern]; ps. Qed.
Hint Resolve match_pattern_P : whole.
Lemma match_instr_P base p i : P (match_instr base p i).
Proof. unfold match_instr. ps. Qed.
Hint Resolve match_instr_P : whole.
Lemma match_instrs_P base p l : forall last, P (match_instrs base p last l).
Proof. induction l; intros; cbn [match_instrs]; ps. Qed.
Hint Resolve match_instrs_P : whole.
Lemma match_opcode_args_P base p ops : P (match_opcode_args base p ops).
Proof. induction ops as [|o ops IH]; cbn [match_opcode_args]; [ps|]. destruct ops; ps. Qed.
Lemma add_stats_P a b c : P (add_stats a b c).
Proof. unfold add_stats. ps. Qed.
Lemma get_buf_P : P get_buf.
Proof. unfold get_buf. ps. Qed.
Lemma put_buf_P i v : P (put_buf i v).
Proof. unfold put_buf. ps. Qed.
Lemma step_P p : P (step p).
Proof. unfold step. ps. Qed.
Hint Resolve match_opcode_args_P add_stats_P get_buf_P put_buf_P step_P : whole.
Lemma fcreate_clr_P p : P (fcreate_clr p).
Proof. unfold fcreate_clr. ps. Qed.
Lemma addinstr_fail_P p : P (addinstr_fail p).
Proof. unfold addinstr_fail. ps. Qed.
Hint Resolve fcreate_clr_P addinstr_fail_P : whole.
Lemma skip_inner_P f : forall w l a b, P (skip_inner f w l a b).
Proof. induction f; intros; cbn [skip_inner]; ps. Qed.
Hint Resolve skip_inner_P : whole.

Lemma echo_error_P t s : P (echo_error C t s).
Proof.
  unfold echo_error. apply P_bind; [ps|]. intros. destruct s; [|ps]. intros n. apply (cI_stale _ _ _ HP).
Qed.
Lemma echo_error_Q n m t : Q n m (echo_error C t (Some m)).
Proof. unfold echo_error. ps. Qed.
Hint Resolve echo_error_P : whole.

Section Fns.
Variable R : fns.
Hypothesis H : fP R.

Lemma parse_num_P e : P (parse_num R e).
Proof. unfold parse_num. ps. Qed.
Hint Resolve parse_num_P : whole.
Lemma parse_f_P e : P (parse_f R e).
Proof. unfold parse_f. ps. Qed.
Hint Resolve parse_f_P : whole.
Lemma parse_define_loop_P f : forall b p, P (parse_define_loop R f b p).
Proof. induction f; intros; cbn [parse_define_loop]; ps. Qed.
Hint Resolve parse_define_loop_P : whole.
Lemma parse_define_P r : P (parse_define R r).
Proof. unfold parse_define. ps. Qed.
Hint Resolve parse_define_P : whole.
Lemma reduce_body_P s : forall q, P (reduce_body R s q).
Proof.
  assert (E : forall n s, (length s <= n)%nat -> forall q, P (reduce_body R s q)).
  { induction n; intros [|c s'] Hl q; simpl in Hl; try lia; cbn [reduce_body]; ps;
      apply IHn; simpl in *; lia. }
  eauto.
Qed.
Hint Resolve reduce_body_P : whole.
Lemma reduce_string_P s : P (reduce_string R s).
Proof. unfold reduce_string. ps. Qed.
Hint Resolve reduce_string_P : whole.
Lemma parse_getc_P p : P (parse_getc C R p).
Proof. unfold parse_getc. ps. Qed.
Hint Resolve parse_getc_P : whole.
Lemma parse_args_loop_P f : forall r id n e p, P (parse_args_loop C R f r id n e p).
Proof. induction f; intros; cbn [parse_args_loop]; ps. Qed.
Hint Resolve parse_args_loop_P : whole.
Lemma parse_args_P p r : P (parse_args C R p r).
Proof. unfold parse_args. ps. Qed.
Hint Resolve parse_args_P : whole.
Lemma parse_define_value_P p r : P (parse_define_value C R p r).
Proof. unfold parse_define_value. ps. Qed.
Hint Resolve parse_define_value_P : whole.
Lemma parse_name_P p : P (parse_name C R p).
Proof. unfold parse_name. ps. Qed.
Hint Resolve parse_name_P : whole.
Lemma parse_single_P p : P (parse_single C R p).
Proof. unfold parse_single. ps. Qed.
Hint Resolve parse_single_P : whole.
Lemma num_loop_P f : forall d t o l p, P (num_loop C R f d t o l p).
Proof.
  induction f; intros; cbn [num_loop]; [ps|].
  destruct (unary p) as [[inv neg] p']. apply P_bind; [ps|]. intros [[p2 v]|]; [|ps].
  destruct (match v with Some _ => v | None => l end); [|ps].
  apply P_bind; [ps|]. intros n.
  destruct (is_divmod o && (n =? 0)) eqn:E1; [ps|].
  destruct (is_divmod o && (t =? INT_MIN) && (n =? -1)) eqn:E2; [ps|].
  apply P_bind; [now apply P_apply|]. ps.
Qed.
Hint Resolve num_loop_P : whole.
Lemma parse_num_full_P p d : P (parse_num_full C R p d).
Proof. unfold parse_num_full. ps. Qed.
Lemma expand_loop_P f : forall d l p, P (expand_loop C R f d l p).
Proof. induction f; intros; cbn [expand_loop]; ps. Qed.
Hint Resolve expand_loop_P : whole.
Lemma expand_expr_full_P d p l : P (expand_expr_full C R d p l).
Proof. unfold expand_expr_full. ps. Qed.
Lemma expand_expr_P p l : P (expand_expr R p l).
Proof. unfold expand_expr. ps. Qed.
Hint Resolve expand_expr_P : whole.
Lemma eval_P e : P (eval C R e).
Proof. unfold eval. ps. Qed.
Lemma define_with_value_P n v : P (define_with_value C R n v).
Proof. unfold define_with_value. ps. Qed.
Hint Resolve define_with_value_P : whole.
Lemma redefine_P r t b : P (redefine C R r t b).
Proof. unfold redefine. ps. Qed.
Hint Resolve redefine_P : whole.

Lemma add_pass_two_expr_P e t z o : P (add_pass_two_expr C R e t z o).
Proof. unfold add_pass_two_expr. ps. Qed.
Hint Resolve add_pass_two_expr_P : whole.
Lemma add_pass_two_output_P e t : P (add_pass_two_output R e t).
Proof. unfold add_pass_two_output. ps. Qed.
Hint Resolve add_pass_two_output_P : whole.
Lemma second_pass_expr_P e : P (second_pass_expr C R e).
Proof. unfold second_pass_expr. ps. Qed.
Hint Resolve second_pass_expr_P : whole.
Lemma second_pass_exprs_P l : P (second_pass_exprs C R l).
Proof. induction l; cbn [second_pass_exprs]; ps. Qed.
Hint Resolve second_pass_exprs_P : whole.
Lemma second_pass_output_P e : P (second_pass_output C R e).
Proof. unfold second_pass_output. ps. Qed.
Hint Resolve second_pass_output_P : whole.
Lemma second_pass_outputs_P l : P (second_pass_outputs C R l).
Proof. induction l; cbn [second_pass_outputs]; ps. Qed.
Hint Resolve second_pass_outputs_P : whole.
Lemma run_second_pass_P : P (run_second_pass C R).
Proof. unfold run_second_pass. ps. Qed.

Lemma emit_mask_P l : P (emit_mask C R l).
Proof. induction l; cbn [emit_mask]; ps. Qed.
Hint Resolve emit_mask_P : whole.
Lemma bitmap_internal_P b p r : P (bitmap_internal C R b p r).
Proof. unfold bitmap_internal. ps. Qed.
Hint Resolve bitmap_internal_P : whole.
Lemma header_token_P r p : P (header_token C R r p).
Proof. unfold header_token. ps. Qed.
Hint Resolve header_token_P : whole.
Lemma header_tokens_P r l : P (header_tokens C R r l).
Proof. induction l; cbn [header_tokens]; ps. Qed.
Hint Resolve header_tokens_P : whole.
Lemma bitmap_header_P r : P (bitmap_header C R r).
Proof. unfold bitmap_header. ps. Qed.
Hint Resolve bitmap_header_P : whole.
Lemma strips_P f : forall b p r m w, P (strips C R f b p r m w).
Proof. induction f; intros; cbn [strips]; ps. Qed.
Hint Resolve strips_P : whole.
Lemma bitmap_body_P b p r m w : P (bitmap_body C R b p r m w).
Proof. unfold bitmap_body. ps. Qed.
Hint Resolve bitmap_body_P : whole.
Lemma map_loop_P f : forall b p n w h pad l t c k,
  P (map_loop C R f b p n w h pad l t c k).
Proof. induction f; intros; cbn [map_loop]; ps. Qed.
Hint Resolve map_loop_P : whole.
Lemma parse_all_P l : P (parse_all R l).
Proof. induction l; cbn [parse_all]; ps. Qed.
Hint Resolve parse_all_P : whole.
Lemma handle_bitmap_P f : P (handle_bitmap C R f).
Proof. unfold handle_bitmap. ps. Qed.
Hint Resolve handle_bitmap_P : whole.

Lemma skip_until_loop_P f : forall u w l n p, P (skip_until_loop R f u w l n p).
Proof. induction f; intros; cbn [skip_until_loop]; ps. Qed.
Hint Resolve skip_until_loop_P : whole.
Lemma skip_until_P u w p : P (skip_until R u w p).
Proof. unfold skip_until. ps. Qed.
Hint Resolve skip_until_P : whole.
Lemma do_if_P p c : P (do_if R p c).
Proof. unfold do_if. ps. Qed.
Hint Resolve do_if_P : whole.
Lemma handle_preop_if_P p : P (handle_preop_if R p).
Proof. unfold handle_preop_if. ps. Qed.
Hint Resolve handle_preop_if_P : whole.
Lemma concat_loop_P f : forall e p, P (concat_loop C R f e p).
Proof. induction f; intros; cbn [concat_loop]; ps. Qed.
Hint Resolve concat_loop_P : whole.
Lemma preop_define_P p : P (preop_define C R p).
Proof. unfold preop_define. ps. Qed.
Hint Resolve preop_define_P : whole.
Lemma preop_include_P p : P (preop_include C R p).
Proof. unfold preop_include. ps. Qed.
Hint Resolve preop_include_P : whole.
Lemma preop_ifdef_P w p : P (preop_ifdef C R w p).
Proof. unfold preop_ifdef. ps. Qed.
Hint Resolve preop_ifdef_P : whole.
Lemma preop_macro_P p : P (preop_macro C R p).
Proof. unfold preop_macro. ps. Qed.
Hint Resolve preop_macro_P : whole.
Lemma preop_defcont_P b p : P (preop_defcont C R b p).
Proof. unfold preop_defcont. ps. Qed.
Hint Resolve preop_defcont_P : whole.
Lemma skip_quiet_P w p : P (skip_quiet R w p).
Proof. unfold skip_quiet. ps. Qed.
Hint Resolve skip_quiet_P : whole.
Lemma handle_preop_P p : P (handle_preop C R p).
Proof. unfold handle_preop. ps. Qed.

Lemma write_operands_P pat : forall a s z b, P (write_operands C R pat a s z b).
Proof. induction pat; intros; cbn [write_operands]; ps. Qed.
Hint Resolve write_operands_P : whole.
Lemma write_instruction_data_P i a s : P (write_instruction_data C R i a s).
Proof. unfold write_instruction_data. ps. Qed.
Hint Resolve write_instruction_data_P : whole.
Lemma handle_opcode_P b p o s : P (handle_opcode C R b p o s).
Proof. unfold handle_opcode. ps. Qed.
Hint Resolve handle_opcode_P : whole.
Lemma macro_lines_P f : forall p, P (macro_lines R f p).
Proof. induction f; intros; cbn [macro_lines]; ps. Qed.
Hint Resolve macro_lines_P : whole.
Lemma run_macro_P p r : P (run_macro C R p r).
Proof. unfold run_macro. ps. Qed.
Hint Resolve run_macro_P : whole.
Lemma fcreate_run_P : P (fcreate_run C R).
Proof. unfold fcreate_run. ps. Qed.
Hint Resolve fcreate_run_P : whole.
Lemma fcreate_buf_P p : P (fcreate_buf R p).
Proof. unfold fcreate_buf. ps. Qed.
Hint Resolve fcreate_buf_P : whole.
Lemma fcreate_wr_P p : P (fcreate_wr R p).
Proof. unfold fcreate_wr. ps. Qed.
Hint Resolve fcreate_wr_P : whole.
Lemma handle_opcode_or_macro_P p : P (handle_opcode_or_macro C R p).
Proof. unfold handle_opcode_or_macro. ps. Qed.
Hint Resolve handle_opcode_or_macro_P : whole.

Lemma emit_define_I t n r p : I n (emit_define C R t n r p).
Proof. unfold emit_define. ps. Qed.
Lemma emit_word_P w t s : P (emit_word C R w t s).
Proof.
  unfold emit_word. repeat (cbv beta zeta; first
    [ match goal with
      | |- I _ (emit_define _ _ _ _ _ _) => apply emit_define_I
      | |- Q _ _ (bind (echo_error _ _ _) _) =>
        apply (cQ_after _ _ _ HP); [apply echo_error_Q|intros ?]
      end
    | p1 | solve [auto with whole] | q1 | progress intros]).
Qed.
Hint Resolve emit_word_P : whole.
Lemma emit_loop_P f : forall t s e p, P (emit_loop C R f t s e p).
Proof. induction f; intros; cbn [emit_loop]; ps. Qed.
Hint Resolve emit_loop_P : whole.
Lemma parse_emit_string_P p t : P (parse_emit_string C R p t).
Proof. unfold parse_emit_string. ps. Qed.
Lemma dir_org_P p : P (dir_org R p).
Proof. unfold dir_org. ps. Qed.
Hint Resolve dir_org_P : whole.
Lemma dir_fill_P p : P (dir_fill R p).
Proof. unfold dir_fill. ps. Qed.
Hint Resolve dir_fill_P : whole.
Lemma dir_addinstr_P p : P (dir_addinstr C R p).
Proof. unfold dir_addinstr. ps. Qed.
Hint Resolve dir_addinstr_P : whole.
Lemma dir_echo_file_P p : P (dir_echo_file C R p).
Proof. unfold dir_echo_file. ps. Qed.
Hint Resolve dir_echo_file_P : whole.
Lemma dir_echo_P p : P (dir_echo C R p).
Proof. unfold dir_echo. ps. Qed.
Hint Resolve dir_echo_P : whole.
Lemma dir_equ_P p : P (dir_equ R p).
Proof. unfold dir_equ. ps. Qed.
Hint Resolve dir_equ_P : whole.
Lemma dir_show_P p : P (dir_show C R p).
Proof. unfold dir_show. ps. Qed.
Hint Resolve dir_show_P : whole.
Lemma dir_seek_P p : P (dir_seek C R p).
Proof. unfold dir_seek. ps. Qed.
Hint Resolve dir_seek_P : whole.
Lemma dir_assume_P p : P (dir_assume C R p).
Proof. unfold dir_assume. ps. Qed.
Hint Resolve dir_assume_P : whole.
Lemma handle_directive_P p : P (handle_directive C R p).
Proof. unfold handle_directive. ps. Qed.
Hint Resolve handle_directive_P : whole.

Lemma equate_P p : P (equate R p).
Proof. unfold equate. ps. Qed.
Hint Resolve equate_P : whole.
Lemma line_sec_P f : forall p, P (line_sec C R f p).
Proof. induction f; intros; cbn [line_sec]; ps. Qed.
Hint Resolve line_sec_P : whole.
Lemma line_loop_P f : forall p, P (line_loop C R f p).
Proof. induction f; intros; cbn [line_loop]; ps. Qed.
Hint Resolve line_loop_P : whole.
Lemma run_first_pass_line_P p : P (run_first_pass_line C R p).
Proof. unfold run_first_pass_line. ps. Qed.
Lemma pass_loop_P f : forall p, P (pass_loop R f p).
Proof. induction f; intros; cbn [pass_loop]; ps. Qed.
Hint Resolve pass_loop_P : whole.
Lemma run_first_pass_P p : P (run_first_pass C R p).
Proof. unfold run_first_pass. ps. Qed.


Lemma lab_defines_P t : forall l, P (lab_defines R t l).
Proof. induction t; intros; cbn [lab_defines]; ps. Qed.

End Fns.

Theorem knot_P n : fP (knot C n).
Proof.
  induction n as [|n IH].
  - split; intros; simpl; apply P_nofuel.
  - cbn [knot]. split; intros; cbn [f_full f_eval f_expand f_preop f_if f_line f_pass f_emit].
    + now apply parse_num_full_P.
    + now apply eval_P.
    + now apply expand_expr_full_P.
    + now apply handle_preop_P.
    + now apply handle_preop_if_P.
    + now apply run_first_pass_line_P.
    + now apply run_first_pass_P.
    + now apply parse_emit_string_P.
Qed.
End Whole.
