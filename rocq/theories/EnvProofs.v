(** Two runs that differ only in what signed overflow does and in the random numbers: where the
    first one ends without having asked for a random number, the second one is the same. *)
From Verif Require Import Base BaseProofs State UtilsModel ErrorsModel StorageModel ParserModel PassTwoModel
  BitmapModel PreopModel PassOneModel DirectiveModel Knot ExportModel MainModel MonadProofs.

Definition le {A} (m m' : M A) : Prop := forall s,
  match m s with
  | Ok _ s' | Exit _ s' => (s_randn s <= s_randn s')%nat /\ (s_randn s' = s_randn s -> m' s = m s)
  | _ => True
  end.

Record fle (R R' : fns) : Prop := mkfle {
  fle_n : (f_n R <= f_n R')%nat;
  fle_full : forall p d, le (f_full R p d) (f_full R' p d);
  fle_eval : forall p, le (f_eval R p) (f_eval R' p);
  fle_expand : forall d p l, le (f_expand R d p l) (f_expand R' d p l);
  fle_preop : forall p, le (f_preop R p) (f_preop R' p);
  fle_if : forall p, le (f_if R p) (f_if R' p);
  fle_line : forall p, le (f_line R p) (f_line R' p);
  fle_pass : forall p, le (f_pass R p) (f_pass R' p);
  fle_emit : forall p t, le (f_emit R p t) (f_emit R' p t) }.

(** The same settings, overflow being undefined in the first. *)
Record alike (C C' : cfg) : Prop := mkalike {
  al_wrap : c_wrap C = false;
  al_normal : c_normal C' = c_normal C;
  al_counter : c_counter C' = c_counter C;
  al_symtable : c_symtable C' = c_symtable C;
  al_list : c_list C' = c_list C;
  al_ez80 : c_ez80 C' = c_ez80 C;
  al_case : c_case C' = c_case C;
  al_files : c_files C' = c_files C;
  al_cwd : c_cwd C' = c_cwd C;
  al_md5 : c_md5 C' = c_md5 C }.

Lemma le_bind {A B} (m m' : M A) (k k' : A -> M B) :
  le m m' -> (forall a, le (k a) (k' a)) -> le (bind m k) (bind m' k').
Proof.
  intros H1 H2 s. unfold bind. specialize (H1 s). destruct (m s) as [a s1|c s1|u|]; try exact I.
  - destruct H1 as (M1 & E1). specialize (H2 a s1). destruct (k a s1) as [b s2|c s2|u|]; try exact I.
    + destruct H2 as (M2 & E2). split; [lia|]. intros E. rewrite E1 by lia. apply E2. lia.
    + destruct H2 as (M2 & E2). split; [lia|]. intros E. rewrite E1 by lia. apply E2. lia.
  - destruct H1 as (M1 & E1). split; [exact M1|]. intros E. now rewrite E1.
Qed.
Lemma le_ret {A} (a : A) : le (ret a) (ret a).
Proof. intros s. split; [apply Nat.le_refl|reflexivity]. Qed.
Lemma le_get {A} (f : st -> A) : le (get f) (get f).
Proof. intros s. split; [apply Nat.le_refl|reflexivity]. Qed.
Lemma le_upd (f : st -> st) : (forall s, s_randn (f s) = s_randn s) -> le (upd f) (upd f).
Proof. intros E s. cbn [upd]. rewrite E. split; [apply Nat.le_refl|reflexivity]. Qed.
Lemma le_undef {A} w (m : M A) : le (undef w) m.
Proof. intros s. exact I. Qed.
Lemma le_nofuel {A} (m : M A) : le nofuel m.
Proof. intros s. exact I. Qed.
Lemma le_exit {A} c : le (fun s => Exit c s : res A) (fun s => Exit c s).
Proof. intros s. split; [apply Nat.le_refl|reflexivity]. Qed.

(** Structural steps: binds, and case distinctions on the same value. *)
Ltac le1 :=
  match goal with
  | |- le (ret _) (ret _) => apply le_ret
  | |- le (get _) (get _) => apply le_get
  | |- le (upd _) (upd _) => apply le_upd; intros; reflexivity
  | |- le (undef _) _ => apply le_undef
  | |- le nofuel _ => apply le_nofuel
  | |- le (fun s => Exit _ s) _ => apply le_exit
  | |- le (bind _ _) (bind _ _) => apply le_bind; [|intros ?]
  | |- le (whenM ?b _) (whenM ?b _) => unfold whenM; destruct b
  | |- le (match ?x with _ => _ end) (match ?x with _ => _ end) => destruct x
  | |- le (let '_ := ?x in _) (let '_ := ?x in _) => destruct x
  | H : fle _ _ |- le (f_full _ _ _) _ => apply (fle_full _ _ H)
  | H : fle _ _ |- le (f_eval _ _) _ => apply (fle_eval _ _ H)
  | H : fle _ _ |- le (f_expand _ _ _ _) _ => apply (fle_expand _ _ H)
  | H : fle _ _ |- le (f_preop _ _) _ => apply (fle_preop _ _ H)
  | H : fle _ _ |- le (f_if _ _) _ => apply (fle_if _ _ H)
  | H : fle _ _ |- le (f_line _ _) _ => apply (fle_line _ _ H)
  | H : fle _ _ |- le (f_pass _ _) _ => apply (fle_pass _ _ H)
  | H : fle _ _ |- le (f_emit _ _ _) _ => apply (fle_emit _ _ H)
  end.
Create HintDb le.

Lemma get_define_le r : le (get_define r) (get_define r).
Proof. intros s. unfold get_define. destruct (lookup_ref s r); [split; [apply Nat.le_refl|reflexivity]|exact I]. Qed.
Lemma put_define_le r d : le (put_define r d) (put_define r d).
Proof.
  intros s. unfold put_define. destruct (lookup_ref s r); [|exact I]. destruct r as [n|id n]; [split; [apply Nat.le_refl|reflexivity]|].
  destruct (find_set id (s_args s)); [split; [apply Nat.le_refl|reflexivity]|exact I].
Qed.
#[global] Hint Resolve get_define_le put_define_le : le.

Section Mono.
Variables C C' : cfg.
Variables R R' : fns.
Hypothesis A : alike C C'.
Hypothesis H : fle R R'.
Ltac al := rewrite ?(al_normal _ _ A), ?(al_counter _ _ A), ?(al_symtable _ _ A), ?(al_list _ _ A), ?(al_ez80 _ _ A),
  ?(al_case _ _ A), ?(al_files _ _ A), ?(al_cwd _ _ A), ?(al_md5 _ _ A).
Ltac les := repeat (cbv beta zeta; al; first [le1 | solve [auto with le] | progress intros]).

Lemma key_same n : key C' n = key C n.
Proof. unfold key. now al. Qed.
Lemma start_session_le  : le (start_session ) (start_session ).
Proof. unfold start_session; les. Qed.
Hint Resolve start_session_le : le.
Lemma replay_session_le n b : le (replay_session C n b) (replay_session C' n b).
Proof. unfold replay_session; les. Qed.
Hint Resolve replay_session_le : le.
Lemma end_session_le n : le (end_session n) (end_session n).
Proof. unfold end_session; les. Qed.
Hint Resolve end_session_le : le.
Lemma set_problem_le w c : le (set_problem w c) (set_problem w c).
Proof. unfold set_problem; les. Qed.
Hint Resolve set_problem_le : le.
Lemma set_error_le c : le (set_error c) (set_error c).
Proof. unfold set_error; les. Qed.
Hint Resolve set_error_le : le.
Lemma set_warning_le c : le (set_warning c) (set_warning c).
Proof. unfold set_warning; les. Qed.
Hint Resolve set_warning_le : le.
Lemma raise_exit_le n : le (raise_exit n) (raise_exit n).
Proof. unfold raise_exit; les. Qed.
Hint Resolve raise_exit_le : le.
Lemma show_warning_le  : le (show_warning ) (show_warning ).
Proof. unfold show_warning; les. Qed.
Hint Resolve show_warning_le : le.
Lemma show_error_le  : le (show_error ) (show_error ).
Proof. unfold show_error; les. Qed.
Hint Resolve show_error_le : le.
Lemma show_fatal_error_le  : le (show_fatal_error ) (show_fatal_error ).
Proof. unfold show_fatal_error; les. Qed.
Hint Resolve show_fatal_error_le : le.
Lemma search_labels_le n : le (search_labels C n) (search_labels C' n).
Proof. unfold search_labels; rewrite ?key_same; les. Qed.
Hint Resolve search_labels_le : le.
Lemma search_local_defines_le n : le (search_local_defines C n) (search_local_defines C' n).
Proof. unfold search_local_defines; rewrite ?key_same; les. Qed.
Hint Resolve search_local_defines_le : le.
Lemma set_contents_le r t : le (set_contents r t) (set_contents r t).
Proof. unfold set_contents; les. Qed.
Hint Resolve set_contents_le : le.
Lemma search_defines_le n l : le (search_defines C n l) (search_defines C' n l).
Proof. unfold search_defines; rewrite ?key_same; les. Qed.
Hint Resolve search_defines_le : le.
Lemma add_define_le n l : le (add_define C n l) (add_define C' n l).
Proof. unfold add_define; rewrite ?key_same; les. Qed.
Hint Resolve add_define_le : le.
Lemma remove_define_le n : le (remove_define C n) (remove_define C' n).
Proof. unfold remove_define; rewrite ?key_same; les. Qed.
Hint Resolve remove_define_le : le.
Lemma set_define_le f f' r t b : (forall t, le (f t) (f' t)) -> le (set_define C f r t b) (set_define C' f' r t b).
Proof. intros F. unfold set_define; les. Qed.
Hint Resolve set_define_le : le.
Lemma add_reusable_le  : le (add_reusable ) (add_reusable ).
Proof. unfold add_reusable; les. Qed.
Hint Resolve add_reusable_le : le.
Lemma get_curr_reusable_le  : le (get_curr_reusable ) (get_curr_reusable ).
Proof. unfold get_curr_reusable; les. Qed.
Hint Resolve get_curr_reusable_le : le.
Lemma set_curr_reusable_le i : le (set_curr_reusable i) (set_curr_reusable i).
Proof. unfold set_curr_reusable; les. Qed.
Hint Resolve set_curr_reusable_le : le.
Lemma search_reusables_le i : le (search_reusables i) (search_reusables i).
Proof. unfold search_reusables; les. Qed.
Hint Resolve search_reusables_le : le.
Lemma add_label_le n v : le (add_label C n v) (add_label C' n v).
Proof. unfold add_label; rewrite ?key_same; les. Qed.
Hint Resolve add_label_le : le.
Lemma set_label_value_le k v : le (set_label_value k v) (set_label_value k v).
Proof. unfold set_label_value; les. Qed.
Hint Resolve set_label_value_le : le.
Lemma add_arg_set_le  : le (add_arg_set ) (add_arg_set ).
Proof. unfold add_arg_set; les. Qed.
Hint Resolve add_arg_set_le : le.
Lemma add_arg_le n v i : le (add_arg C n v i) (add_arg C' n v i).
Proof. unfold add_arg; rewrite ?key_same; les. Qed.
Hint Resolve add_arg_le : le.
Lemma remove_arg_set_le i : le (remove_arg_set i) (remove_arg_set i).
Proof. unfold remove_arg_set; les. Qed.
Hint Resolve remove_arg_set_le : le.
Lemma int_res_le z : le (int_res C z) (int_res C' z).
Proof. unfold int_res. rewrite (al_wrap _ _ A). les. Qed.
Hint Resolve int_res_le : le.
Lemma apply_op_le o t n : le (apply_op C o t n) (apply_op C' o t n).
Proof. unfold apply_op; les. Qed.
Hint Resolve apply_op_le : le.
Lemma conv_generic_le b c s e : le (conv_generic b c s e) (conv_generic b c s e).
Proof. unfold conv_generic; les. Qed.
Hint Resolve conv_generic_le : le.
Lemma conv_hex_le s e : le (conv_hex s e) (conv_hex s e).
Proof. apply conv_generic_le. Qed.
Lemma conv_dec_le s e : le (conv_dec s e) (conv_dec s e).
Proof. apply conv_generic_le. Qed.
Lemma conv_bin_le s e : le (conv_bin s e) (conv_bin s e).
Proof. apply conv_generic_le. Qed.
Hint Resolve conv_hex_le conv_dec_le conv_bin_le : le.
Lemma next_rand_le : le (next_rand C) (next_rand C').
Proof. intros s. unfold next_rand. cbn. split; lia. Qed.
Hint Resolve next_rand_le : le.
Lemma char_escape_le c : le (char_escape C c) (char_escape C' c).
Proof. unfold char_escape; les. Qed.
Hint Resolve char_escape_le : le.
Lemma read_expr'_le b p d : le (read_expr' b p d) (read_expr' b p d).
Proof. unfold read_expr'; les. Qed.
Hint Resolve read_expr'_le : le.
Lemma read_expr_le p d : le (read_expr p d) (read_expr p d).
Proof. unfold read_expr; les. Qed.
Hint Resolve read_expr_le : le.
Lemma extract_arg_le p e : le (extract_arg p e) (extract_arg p e).
Proof. unfold extract_arg; les. Qed.
Hint Resolve extract_arg_le : le.
Lemma get_op_le f : forall d p, le (get_op f d p) (get_op f d p).
Proof. induction f; intros; cbn [get_op]; les. Qed.
Hint Resolve get_op_le : le.
Lemma dec_depth_le  : le (dec_depth ) (dec_depth ).
Proof. unfold dec_depth; les. Qed.
Hint Resolve dec_depth_le : le.
Lemma fill_args_le l : forall i, le (fill_args C l i) (fill_args C' l i).
Proof. induction l; intros; cbn [fill_args]; les. Qed.
Hint Resolve fill_args_le : le.
Lemma write_out_le v : le (write_out v) (write_out v).
Proof. unfold write_out; les. Qed.
Hint Resolve write_out_le : le.
Lemma write_all_le l : le (write_all l) (write_all l).
Proof. induction l; cbn [write_all]; les. Qed.
Hint Resolve write_all_le : le.
Lemma add_pc_le n : le (add_pc n) (add_pc n).
Proof. unfold add_pc; les. Qed.
Hint Resolve add_pc_le : le.
Lemma add_datasize_le n : le (add_datasize n) (add_datasize n).
Proof. unfold add_datasize; les. Qed.
Hint Resolve add_datasize_le : le.
Lemma write_arg_le v t i o : le (write_arg C v t i o) (write_arg C' v t i o).
Proof. unfold write_arg; les. Qed.
Hint Resolve write_arg_le : le.
Lemma print_le t : le (print t) (print t).
Proof. unfold print; les. Qed.
Hint Resolve print_le : le.
Lemma show_define_le r : le (show_define r) (show_define r).
Proof. unfold show_define; les. Qed.
Hint Resolve show_define_le : le.
Lemma opt_le {X} w (o : option X) : le (opt w o) (opt w o).
Proof. unfold opt; les. Qed.
Hint Resolve opt_le : le.
Lemma mapM_le {X Y} (f : X -> M Y) l : (forall x, le (f x) (f x)) -> le (mapM f l) (mapM f l).
Proof. intros F. induction l; cbn [mapM]; les. Qed.
Ltac lem := repeat (cbv beta zeta; al; first [le1 | apply mapM_le | solve [auto with le] | progress intros]).
Lemma bits_at_le b r w i : le (bits_at b r w i) (bits_at b r w i).
Proof. unfold bits_at; les. Qed.
Hint Resolve bits_at_le : le.
Lemma pixel_bytes_le n : forall b r w i a, le (pixel_bytes n b r w i a) (pixel_bytes n b r w i a).
Proof. induction n; intros; cbn [pixel_bytes]; les. Qed.
Hint Resolve pixel_bytes_le : le.
Lemma pixel_le b p r w t : le (pixel b p r w t) (pixel b p r w t).
Proof. unfold pixel; les. Qed.
Hint Resolve pixel_le : le.
Lemma cell_le b p r s m v w t : le (cell b p r s m v w t) (cell b p r s m v w t).
Proof. unfold cell; les. Qed.
Hint Resolve cell_le : le.
Lemma emit_le v : le (emit v) (emit v).
Proof. unfold emit; les. Qed.
Hint Resolve emit_le : le.
Lemma emit_all_le l : le (emit_all l) (emit_all l).
Proof. induction l; cbn [emit_all]; les. Qed.
Hint Resolve emit_all_le : le.
Lemma label_with_le b x v : le (label_with C b x v) (label_with C' b x v).
Proof. unfold label_with; les. Qed.
Hint Resolve label_with_le : le.
Lemma add_line_le n : le (add_line n) (add_line n).
Proof. unfold add_line; les. Qed.
Hint Resolve add_line_le : le.
Lemma arg_defs_loop_le f : forall r e p, le (arg_defs_loop C f r e p) (arg_defs_loop C' f r e p).
Proof. induction f; intros; cbn [arg_defs_loop]; les. Qed.
Hint Resolve arg_defs_loop_le : le.
Lemma parse_arg_defs_le p r : le (parse_arg_defs C p r) (parse_arg_defs C' p r).
Proof. unfold parse_arg_defs; les. Qed.
Hint Resolve parse_arg_defs_le : le.
Lemma exists_same f : exists_file C' f = exists_file C f.
Proof. unfold exists_file. now al. Qed.
Lemma find_same n : forall l, find_in C' l n = find_in C l n.
Proof. induction l; cbn [find_in]; [reflexivity|]. now rewrite exists_same, IHl. Qed.
Lemma full_path_le n : le (full_path C n) (full_path C' n).
Proof. unfold full_path. apply le_bind; [les|intros l]. rewrite exists_same, find_same. les. Qed.
Hint Resolve full_path_le : le.
Lemma preop_import_le p : le (preop_import C p) (preop_import C' p).
Proof. unfold preop_import; les. Qed.
Hint Resolve preop_import_le : le.
Lemma match_pattern_le b pat : forall p a, le (match_pattern b pat p a) (match_pattern b pat p a).
Proof. induction pat; intros; cbn [match_pattern]; les. Qed.
Hint Resolve match_pattern_le : le.
Lemma match_instr_le b p i : le (match_instr b p i) (match_instr b p i).
Proof. unfold match_instr; les. Qed.
Hint Resolve match_instr_le : le.
Lemma match_instrs_le b p l : forall x, le (match_instrs b p x l) (match_instrs b p x l).
Proof. induction l; intros; cbn [match_instrs]; les. Qed.
Hint Resolve match_instrs_le : le.
Lemma match_opcode_args_le b p l : le (match_opcode_args b p l) (match_opcode_args b p l).
Proof. induction l; intros; cbn [match_opcode_args]; les. Qed.
Hint Resolve match_opcode_args_le : le.
Lemma add_stats_le a b c : le (add_stats a b c) (add_stats a b c).
Proof. unfold add_stats; les. Qed.
Hint Resolve add_stats_le : le.
Lemma get_buf_le  : le (get_buf ) (get_buf ).
Proof. unfold get_buf; les. Qed.
Hint Resolve get_buf_le : le.
Lemma put_buf_le i v : le (put_buf i v) (put_buf i v).
Proof. unfold put_buf; les. Qed.
Hint Resolve put_buf_le : le.
Lemma step_le p : le (step p) (step p).
Proof. unfold step; les. Qed.
Hint Resolve step_le : le.
Lemma fcreate_clr_le p : le (fcreate_clr p) (fcreate_clr p).
Proof. unfold fcreate_clr; les. Qed.
Hint Resolve fcreate_clr_le : le.
Lemma emit_chars_le l : le (emit_chars C l) (emit_chars C' l).
Proof. induction l; cbn [emit_chars]; les. Qed.
Hint Resolve emit_chars_le : le.
Lemma echo_error_le t s : le (echo_error C t s) (echo_error C' t s).
Proof. unfold echo_error; les. Qed.
Hint Resolve echo_error_le : le.
Lemma addinstr_fail_le p : le (addinstr_fail p) (addinstr_fail p).
Proof. unfold addinstr_fail; les. Qed.
Hint Resolve addinstr_fail_le : le.
Lemma write_n_le n : forall v, le (write_n n v) (write_n n v).
Proof. induction n; intros; cbn [write_n]; les. Qed.
Hint Resolve write_n_le : le.
Lemma option_loop_le f : forall e p, le (option_loop C f e p) (option_loop C' f e p).
Proof. induction f; intros; cbn [option_loop]; les. Qed.
Hint Resolve option_loop_le : le.
Lemma makeprgm_warnings_le z c n d : le (makeprgm_warnings z c n d) (makeprgm_warnings z c n d).
Proof. unfold makeprgm_warnings; les. Qed.
Hint Resolve makeprgm_warnings_le : le.
Lemma makeapp_le m d : le (makeapp m d) (makeapp m d).
Proof. unfold makeapp; les. Qed.
Hint Resolve makeapp_le : le.
Lemma write_file_le m n f : le (write_file C m n f) (write_file C' m n f).
Proof. unfold write_file; les. Qed.
Hint Resolve write_file_le : le.

Lemma parse_num_le e : le (parse_num R e) (parse_num R' e).
Proof. unfold parse_num. les. Qed.
Hint Resolve parse_num_le : le.
Lemma parse_f_le e : le (parse_f R e) (parse_f R' e).
Proof. unfold parse_f. les. Qed.
Hint Resolve parse_f_le : le.
Lemma parse_define_loop_le f : forall b p, le (parse_define_loop R f b p) (parse_define_loop R' f b p).
Proof. induction f; intros; cbn [parse_define_loop]; les. Qed.
Hint Resolve parse_define_loop_le : le.
Lemma parse_define_le r : le (parse_define R r) (parse_define R' r).
Proof. unfold parse_define. les. Qed.
Hint Resolve parse_define_le : le.
Lemma reduce_body_le s : forall q, le (reduce_body R s q) (reduce_body R' s q).
Proof.
  assert (E : forall n s, (length s <= n)%nat -> forall q, le (reduce_body R s q) (reduce_body R' s q)).
  { induction n; intros [|c s'] Hl q; simpl in Hl; try lia; cbn [reduce_body]; les;
      apply IHn; simpl in *; lia. }
  eauto.
Qed.
Hint Resolve reduce_body_le : le.
Lemma reduce_string_le s : le (reduce_string R s) (reduce_string R' s).
Proof. unfold reduce_string. les. Qed.
Hint Resolve reduce_string_le : le.
Lemma parse_getc_le p : le (parse_getc C R p) (parse_getc C' R' p).
Proof. unfold parse_getc. les. Qed.
Hint Resolve parse_getc_le : le.
Lemma parse_args_loop_le f : forall r id n e p, le (parse_args_loop C R f r id n e p) (parse_args_loop C' R' f r id n e p).
Proof. induction f; intros; cbn [parse_args_loop]; les. Qed.
Hint Resolve parse_args_loop_le : le.
Lemma parse_args_le p r : le (parse_args C R p r) (parse_args C' R' p r).
Proof. unfold parse_args. les. Qed.
Hint Resolve parse_args_le : le.
Lemma parse_define_value_le p r : le (parse_define_value C R p r) (parse_define_value C' R' p r).
Proof. unfold parse_define_value. les. Qed.
Hint Resolve parse_define_value_le : le.
Lemma parse_name_le p : le (parse_name C R p) (parse_name C' R' p).
Proof. unfold parse_name. les. Qed.
Hint Resolve parse_name_le : le.
Lemma parse_single_le p : le (parse_single C R p) (parse_single C' R' p).
Proof. unfold parse_single. les. Qed.
Hint Resolve parse_single_le : le.
Lemma num_loop_le f : forall d t o l p, le (num_loop C R f d t o l p) (num_loop C' R' f d t o l p).
Proof. induction f; intros; cbn [num_loop]; les. Qed.
Hint Resolve num_loop_le : le.
Lemma parse_num_full_le p d : le (parse_num_full C R p d) (parse_num_full C' R' p d).
Proof. unfold parse_num_full. les. Qed.
Lemma expand_loop_le f : forall d l p, le (expand_loop C R f d l p) (expand_loop C' R' f d l p).
Proof. induction f; intros; cbn [expand_loop]; les. Qed.
Hint Resolve expand_loop_le : le.
Lemma expand_expr_full_le d p l : le (expand_expr_full C R d p l) (expand_expr_full C' R' d p l).
Proof. unfold expand_expr_full. les. Qed.
Lemma expand_expr_le p l : le (expand_expr R p l) (expand_expr R' p l).
Proof. unfold expand_expr. les. Qed.
Hint Resolve expand_expr_le : le.
Lemma eval_le e : le (eval C R e) (eval C' R' e).
Proof. unfold eval. les. Qed.
Lemma define_with_value_le n v : le (define_with_value C R n v) (define_with_value C' R' n v).
Proof. unfold define_with_value. les. Qed.
Hint Resolve define_with_value_le : le.
Lemma redefine_le r t b : le (redefine C R r t b) (redefine C' R' r t b).
Proof. unfold redefine, set_define. les. Qed.
Hint Resolve redefine_le : le.

Lemma add_pass_two_expr_le e t z o : le (add_pass_two_expr C R e t z o) (add_pass_two_expr C' R' e t z o).
Proof. unfold add_pass_two_expr. les. Qed.
Hint Resolve add_pass_two_expr_le : le.
Lemma add_pass_two_output_le e t : le (add_pass_two_output R e t) (add_pass_two_output R' e t).
Proof. unfold add_pass_two_output. les. Qed.
Hint Resolve add_pass_two_output_le : le.
Lemma second_pass_expr_le e : le (second_pass_expr C R e) (second_pass_expr C' R' e).
Proof. unfold second_pass_expr. les. Qed.
Hint Resolve second_pass_expr_le : le.
Lemma second_pass_exprs_le l : le (second_pass_exprs C R l) (second_pass_exprs C' R' l).
Proof. induction l; cbn [second_pass_exprs]; les. Qed.
Hint Resolve second_pass_exprs_le : le.
Lemma second_pass_output_le e : le (second_pass_output C R e) (second_pass_output C' R' e).
Proof. unfold second_pass_output. les. Qed.
Hint Resolve second_pass_output_le : le.
Lemma second_pass_outputs_le l : le (second_pass_outputs C R l) (second_pass_outputs C' R' l).
Proof. induction l; cbn [second_pass_outputs]; les. Qed.
Hint Resolve second_pass_outputs_le : le.
Lemma run_second_pass_le : le (run_second_pass C R) (run_second_pass C' R').
Proof. unfold run_second_pass. les. Qed.

Lemma emit_mask_le l : le (emit_mask C R l) (emit_mask C' R' l).
Proof. induction l; cbn [emit_mask]; les. Qed.
Hint Resolve emit_mask_le : le.
Lemma bitmap_internal_le b p r : le (bitmap_internal C R b p r) (bitmap_internal C' R' b p r).
Proof. unfold bitmap_internal. lem. Qed.
Hint Resolve bitmap_internal_le : le.
Lemma header_token_le r p : le (header_token C R r p) (header_token C' R' r p).
Proof. unfold header_token. les. Qed.
Hint Resolve header_token_le : le.
Lemma header_tokens_le r l : le (header_tokens C R r l) (header_tokens C' R' r l).
Proof. induction l; cbn [header_tokens]; les. Qed.
Hint Resolve header_tokens_le : le.
Lemma bitmap_header_le r : le (bitmap_header C R r) (bitmap_header C' R' r).
Proof. unfold bitmap_header. les. Qed.
Hint Resolve bitmap_header_le : le.
Lemma strips_le f : forall b p r m w, le (strips C R f b p r m w) (strips C' R' f b p r m w).
Proof. induction f; intros; cbn [strips]; les. Qed.
Hint Resolve strips_le : le.
Lemma bitmap_body_le b p r m w : le (bitmap_body C R b p r m w) (bitmap_body C' R' b p r m w).
Proof. unfold bitmap_body. les. Qed.
Hint Resolve bitmap_body_le : le.
Lemma map_loop_le f : forall f' b p n w h pad l t c k, (f <= f')%nat ->
  le (map_loop C R f b p n w h pad l t c k) (map_loop C' R' f' b p n w h pad l t c k).
Proof.
  induction f; intros f' b p n w h pad l t c k Hf; [cbn [map_loop]; les|].
  destruct f' as [|f']; [lia|]. cbn [map_loop]. les; apply IHf; lia.
Qed.
Hint Resolve map_loop_le : le.
Hint Resolve fle_n : le.
Lemma parse_all_le l : le (parse_all R l) (parse_all R' l).
Proof. induction l; cbn [parse_all]; les. Qed.
Hint Resolve parse_all_le : le.
Lemma handle_bitmap_le f : le (handle_bitmap C R f) (handle_bitmap C' R' f).
Proof. unfold handle_bitmap. les. Qed.
Hint Resolve handle_bitmap_le : le.

Lemma skip_inner_le f : forall f' w l a b, (f <= f')%nat -> le (skip_inner f w l a b) (skip_inner f' w l a b).
Proof.
  induction f; intros f' w l a b Hf; [cbn [skip_inner]; les|].
  destruct f' as [|f']; [lia|]. cbn [skip_inner]. les; apply IHf; lia.
Qed.
Hint Resolve skip_inner_le : le.
Lemma skip_until_loop_le f : forall u w l n p, le (skip_until_loop R f u w l n p) (skip_until_loop R' f u w l n p).
Proof. induction f; intros; cbn [skip_until_loop]; les. Qed.
Hint Resolve skip_until_loop_le : le.
Lemma skip_until_le u w p : le (skip_until R u w p) (skip_until R' u w p).
Proof. unfold skip_until. les. Qed.
Hint Resolve skip_until_le : le.
Lemma do_if_le p c : le (do_if R p c) (do_if R' p c).
Proof. unfold do_if. les. Qed.
Hint Resolve do_if_le : le.
Lemma handle_preop_if_le p : le (handle_preop_if R p) (handle_preop_if R' p).
Proof. unfold handle_preop_if. les. Qed.
Hint Resolve handle_preop_if_le : le.
Lemma concat_loop_le f : forall e p, le (concat_loop C R f e p) (concat_loop C' R' f e p).
Proof. induction f; intros; cbn [concat_loop]; les. Qed.
Hint Resolve concat_loop_le : le.
Lemma preop_define_le p : le (preop_define C R p) (preop_define C' R' p).
Proof. unfold preop_define. les. Qed.
Hint Resolve preop_define_le : le.
Lemma preop_include_le p : le (preop_include C R p) (preop_include C' R' p).
Proof. unfold preop_include. les. Qed.
Hint Resolve preop_include_le : le.
Lemma preop_ifdef_le w p : le (preop_ifdef C R w p) (preop_ifdef C' R' w p).
Proof. unfold preop_ifdef. les. Qed.
Hint Resolve preop_ifdef_le : le.
Lemma preop_macro_le p : le (preop_macro C R p) (preop_macro C' R' p).
Proof. unfold preop_macro. les. Qed.
Hint Resolve preop_macro_le : le.
Lemma preop_defcont_le b p : le (preop_defcont C R b p) (preop_defcont C' R' b p).
Proof. unfold preop_defcont. les. Qed.
Hint Resolve preop_defcont_le : le.
Lemma skip_quiet_le w p : le (skip_quiet R w p) (skip_quiet R' w p).
Proof. unfold skip_quiet. les. Qed.
Hint Resolve skip_quiet_le : le.
Lemma handle_preop_le p : le (handle_preop C R p) (handle_preop C' R' p).
Proof. unfold handle_preop. les. Qed.

Lemma write_operands_le pat : forall a s z b, le (write_operands C R pat a s z b) (write_operands C' R' pat a s z b).
Proof. induction pat; intros; cbn [write_operands]; les. Qed.
Hint Resolve write_operands_le : le.
Lemma write_instruction_data_le i a s : le (write_instruction_data C R i a s) (write_instruction_data C' R' i a s).
Proof. unfold write_instruction_data. les. Qed.
Hint Resolve write_instruction_data_le : le.
Lemma handle_opcode_le b p o s : le (handle_opcode C R b p o s) (handle_opcode C' R' b p o s).
Proof. unfold handle_opcode. les. Qed.
Hint Resolve handle_opcode_le : le.
Lemma macro_lines_le f : forall f' p, (f <= f')%nat -> le (macro_lines R f p) (macro_lines R' f' p).
Proof.
  induction f; intros f' p Hf; [cbn [macro_lines]; les|].
  destruct f' as [|f']; [lia|]. cbn [macro_lines]. les; apply IHf; lia.
Qed.
Hint Resolve macro_lines_le : le.
Lemma run_macro_le p r : le (run_macro C R p r) (run_macro C' R' p r).
Proof. unfold run_macro. les. Qed.
Hint Resolve run_macro_le : le.
Lemma fcreate_run_le : le (fcreate_run C R) (fcreate_run C' R').
Proof. unfold fcreate_run. les. Qed.
Hint Resolve fcreate_run_le : le.
Lemma fcreate_buf_le p : le (fcreate_buf R p) (fcreate_buf R' p).
Proof. unfold fcreate_buf. les. Qed.
Hint Resolve fcreate_buf_le : le.
Lemma fcreate_wr_le p : le (fcreate_wr R p) (fcreate_wr R' p).
Proof. unfold fcreate_wr. les. Qed.
Hint Resolve fcreate_wr_le : le.
Lemma handle_opcode_or_macro_le p : le (handle_opcode_or_macro C R p) (handle_opcode_or_macro C' R' p).
Proof. unfold handle_opcode_or_macro. les. Qed.
Hint Resolve handle_opcode_or_macro_le : le.

Lemma emit_define_le t n r p : le (emit_define C R t n r p) (emit_define C' R' t n r p).
Proof. unfold emit_define. les. Qed.
Hint Resolve emit_define_le : le.
Lemma emit_word_le w t s : le (emit_word C R w t s) (emit_word C' R' w t s).
Proof. unfold emit_word. les. Qed.
Hint Resolve emit_word_le : le.
Lemma emit_loop_le f : forall t s e p, le (emit_loop C R f t s e p) (emit_loop C' R' f t s e p).
Proof. induction f; intros; cbn [emit_loop]; les. Qed.
Hint Resolve emit_loop_le : le.
Lemma parse_emit_string_le p t : le (parse_emit_string C R p t) (parse_emit_string C' R' p t).
Proof. unfold parse_emit_string. les. Qed.
Lemma dir_org_le p : le (dir_org R p) (dir_org R' p).
Proof. unfold dir_org. les. Qed.
Hint Resolve dir_org_le : le.
Lemma dir_fill_le p : le (dir_fill R p) (dir_fill R' p).
Proof. unfold dir_fill. les. Qed.
Hint Resolve dir_fill_le : le.
Lemma dir_addinstr_le p : le (dir_addinstr C R p) (dir_addinstr C' R' p).
Proof. unfold dir_addinstr. les. Qed.
Hint Resolve dir_addinstr_le : le.
Lemma dir_echo_file_le p : le (dir_echo_file C R p) (dir_echo_file C' R' p).
Proof. unfold dir_echo_file. les. Qed.
Hint Resolve dir_echo_file_le : le.
Lemma dir_echo_le p : le (dir_echo C R p) (dir_echo C' R' p).
Proof. unfold dir_echo. les. Qed.
Hint Resolve dir_echo_le : le.
Lemma dir_equ_le p : le (dir_equ R p) (dir_equ R' p).
Proof. unfold dir_equ. les. Qed.
Hint Resolve dir_equ_le : le.
Lemma dir_show_le p : le (dir_show C R p) (dir_show C' R' p).
Proof. unfold dir_show. les. Qed.
Hint Resolve dir_show_le : le.
Lemma dir_seek_le p : le (dir_seek C R p) (dir_seek C' R' p).
Proof. unfold dir_seek. les. Qed.
Hint Resolve dir_seek_le : le.
Lemma dir_assume_le p : le (dir_assume C R p) (dir_assume C' R' p).
Proof. unfold dir_assume. les. Qed.
Hint Resolve dir_assume_le : le.
Lemma handle_directive_le p : le (handle_directive C R p) (handle_directive C' R' p).
Proof. unfold handle_directive. les. Qed.
Hint Resolve handle_directive_le : le.

Lemma equate_le p : le (equate R p) (equate R' p).
Proof. unfold equate. les. Qed.
Hint Resolve equate_le : le.
Lemma line_sec_le f : forall p, le (line_sec C R f p) (line_sec C' R' f p).
Proof. induction f; intros; cbn [line_sec]; les. Qed.
Hint Resolve line_sec_le : le.
Lemma line_loop_le f : forall f' p, (f <= f')%nat -> le (line_loop C R f p) (line_loop C' R' f' p).
Proof.
  induction f; intros f' p Hf; [cbn [line_loop]; les|].
  destruct f' as [|f']; [lia|]. cbn [line_loop]. les; apply IHf; lia.
Qed.
Hint Resolve line_loop_le : le.
Lemma run_first_pass_line_le p : le (run_first_pass_line C R p) (run_first_pass_line C' R' p).
Proof. unfold run_first_pass_line. les. Qed.
Lemma pass_loop_le f : forall f' p, (f <= f')%nat -> le (pass_loop R f p) (pass_loop R' f' p).
Proof.
  induction f; intros f' p Hf; [cbn [pass_loop]; les|].
  destruct f' as [|f']; [lia|]. cbn [pass_loop]. les; apply IHf; lia.
Qed.
Hint Resolve pass_loop_le : le.
Lemma run_first_pass_le p : le (run_first_pass C R p) (run_first_pass C' R' p).
Proof. unfold run_first_pass. les. Qed.


Lemma lab_defines_le t : forall l, le (lab_defines R t l) (lab_defines R' t l).
Proof. induction t; intros; cbn [lab_defines]; les. Qed.
Hint Resolve lab_defines_le : le.
Lemma write_labels_le f : le (write_labels R f) (write_labels R' f).
Proof. unfold write_labels. les. Qed.
Hint Resolve write_labels_le : le.
Hint Resolve run_second_pass_le run_first_pass_le : le.
Lemma run_assembly_le src out : le (run_assembly C R src out) (run_assembly C' R' src out).
Proof. unfold run_assembly. les. Qed.

End Mono.
