(** More fuel never changes a result that was reached with less. *)
From Verif Require Import Base BaseProofs State UtilsModel ErrorsModel StorageModel ParserModel PassTwoModel
  BitmapModel PreopModel PassOneModel DirectiveModel Knot ExportModel MainModel MonadProofs.

(** [m] is [m'] where it does not run out of fuel. *)
Definition le {A} (m m' : M A) : Prop := forall s, m s = NoFuel \/ m s = m' s.

Record fle (R R' : fns) : Prop := mkfle {
  fle_n : (f_n R <= f_n R')%nat;
  fle_full : forall p d, le (f_full R p d) (f_full R' p d);
  fle_eval : forall p, le (f_eval R p) (f_eval R' p);
  fle_expand : forall d p l, le (f_expand R d p l) (f_expand R' d p l);
  fle_preop : forall p, le (f_preop R p) (f_preop R' p);
  fle_if : forall p, le (f_if R p) (f_if R' p);
  fle_line : forall p, le (f_line R p) (f_line R' p);
  fle_pass : forall p, le (f_pass R p) (f_pass R' p);
  fle_emit : forall p t, le (f_emit R p t) (f_emit R' p t) }.

Lemma le_refl {A} (m : M A) : le m m.
Proof. right. reflexivity. Qed.
Lemma le_nofuel {A} (m : M A) : le nofuel m.
Proof. left. reflexivity. Qed.
Lemma le_bind {A B} (m m' : M A) (k k' : A -> M B) :
  le m m' -> (forall a, le (k a) (k' a)) -> le (bind m k) (bind m' k').
Proof.
  intros H1 H2 s. unfold bind. destruct (H1 s) as [E|E]; rewrite E; [left; reflexivity|].
  destruct (m' s); [apply H2|right; reflexivity..].
Qed.

(** Structural steps: binds, and case distinctions on the same value. *)
Ltac le1 :=
  match goal with
  | |- le ?m ?m => apply le_refl
  | |- le nofuel _ => apply le_nofuel
  | |- le (bind _ _) (bind _ _) => apply le_bind; [|intros ?]
  | |- le (whenM ?b _) (whenM ?b _) => unfold whenM; destruct b
  | |- le (match ?x with _ => _ end) (match ?x with _ => _ end) => destruct x
  | |- le (let '_ := ?x in _) (let '_ := ?x in _) => destruct x
  | H : fle _ _ |- le (f_full _ _ _) _ => apply (fle_full _ _ H)
  | H : fle _ _ |- le (f_eval _ _) _ => apply (fle_eval _ _ H)
  | H : fle _ _ |- le (f_expand _ _ _ _) _ => apply (fle_expand _ _ H)
  | H : fle _ _ |- le (f_preop _ _) _ => apply (fle_preop _ _ H)
  | H : fle _ _ |- le (f_if _ _) _ => apply (fle_if _ _ H)
  | H : fle _ _ |- le (f_line _ _) _ => apply (fle_line _ _ H)
  | H : fle _ _ |- le (f_pass _ _) _ => apply (fle_pass _ _ H)
  | H : fle _ _ |- le (f_emit _ _ _) _ => apply (fle_emit _ _ H)
  end.
Create HintDb le.
Ltac les := repeat (cbv beta zeta; first [le1 | solve [auto with le] | progress intros]).

Section Mono.
Variable C : cfg.
Variables R R' : fns.
Hypothesis H : fle R R'.

Lemma parse_num_le e : le (parse_num R e) (parse_num R' e).
Proof. unfold parse_num. les. Qed.
Hint Resolve parse_num_le : le.
Lemma parse_f_le e : le (parse_f R e) (parse_f R' e).
Proof. unfold parse_f. les. Qed.
Hint Resolve parse_f_le : le.
Lemma parse_define_loop_le f : forall b p, le (parse_define_loop R f b p) (parse_define_loop R' f b p).
Proof. induction f; intros; cbn [parse_define_loop]; les. Qed.
Hint Resolve parse_define_loop_le : le.
Lemma parse_define_le r : le (parse_define R r) (parse_define R' r).
Proof. unfold parse_define. les. Qed.
Hint Resolve parse_define_le : le.
Lemma reduce_body_le s : forall q, le (reduce_body R s q) (reduce_body R' s q).
Proof.
  assert (E : forall n s, (length s <= n)%nat -> forall q, le (reduce_body R s q) (reduce_body R' s q)).
  { induction n; intros [|c s'] Hl q; simpl in Hl; try lia; cbn [reduce_body]; les;
      apply IHn; simpl in *; lia. }
  eauto.
Qed.
Hint Resolve reduce_body_le : le.
Lemma reduce_string_le s : le (reduce_string R s) (reduce_string R' s).
Proof. unfold reduce_string. les. Qed.
Hint Resolve reduce_string_le : le.
Lemma parse_getc_le p : le (parse_getc C R p) (parse_getc C R' p).
Proof. unfold parse_getc. les. Qed.
Hint Resolve parse_getc_le : le.
Lemma parse_args_loop_le f : forall r id n e p, le (parse_args_loop C R f r id n e p) (parse_args_loop C R' f r id n e p).
Proof. induction f; intros; cbn [parse_args_loop]; les. Qed.
Hint Resolve parse_args_loop_le : le.
Lemma parse_args_le p r : le (parse_args C R p r) (parse_args C R' p r).
Proof. unfold parse_args. les. Qed.
Hint Resolve parse_args_le : le.
Lemma parse_define_value_le p r : le (parse_define_value C R p r) (parse_define_value C R' p r).
Proof. unfold parse_define_value. les. Qed.
Hint Resolve parse_define_value_le : le.
Lemma parse_name_le p : le (parse_name C R p) (parse_name C R' p).
Proof. unfold parse_name. les. Qed.
Hint Resolve parse_name_le : le.
Lemma parse_single_le p : le (parse_single C R p) (parse_single C R' p).
Proof. unfold parse_single. les. Qed.
Hint Resolve parse_single_le : le.
Lemma num_loop_le f : forall d t o l p, le (num_loop C R f d t o l p) (num_loop C R' f d t o l p).
Proof. induction f; intros; cbn [num_loop]; les. Qed.
Hint Resolve num_loop_le : le.
Lemma parse_num_full_le p d : le (parse_num_full C R p d) (parse_num_full C R' p d).
Proof. unfold parse_num_full. les. Qed.
Lemma expand_loop_le f : forall d l p, le (expand_loop C R f d l p) (expand_loop C R' f d l p).
Proof. induction f; intros; cbn [expand_loop]; les. Qed.
Hint Resolve expand_loop_le : le.
Lemma expand_expr_full_le d p l : le (expand_expr_full C R d p l) (expand_expr_full C R' d p l).
Proof. unfold expand_expr_full. les. Qed.
Lemma expand_expr_le p l : le (expand_expr R p l) (expand_expr R' p l).
Proof. unfold expand_expr. les. Qed.
Hint Resolve expand_expr_le : le.
Lemma eval_le e : le (eval C R e) (eval C R' e).
Proof. unfold eval. les. Qed.
Lemma define_with_value_le n v : le (define_with_value C R n v) (define_with_value C R' n v).
Proof. unfold define_with_value. les. Qed.
Hint Resolve define_with_value_le : le.
Lemma redefine_le r t b : le (redefine C R r t b) (redefine C R' r t b).
Proof. unfold redefine, set_define. les. Qed.
Hint Resolve redefine_le : le.

Lemma add_pass_two_expr_le e t z o : le (add_pass_two_expr C R e t z o) (add_pass_two_expr C R' e t z o).
Proof. unfold add_pass_two_expr. les. Qed.
Hint Resolve add_pass_two_expr_le : le.
Lemma add_pass_two_output_le e t : le (add_pass_two_output R e t) (add_pass_two_output R' e t).
Proof. unfold add_pass_two_output. les. Qed.
Hint Resolve add_pass_two_output_le : le.
Lemma second_pass_expr_le e : le (second_pass_expr C R e) (second_pass_expr C R' e).
Proof. unfold second_pass_expr. les. Qed.
Hint Resolve second_pass_expr_le : le.
Lemma second_pass_exprs_le l : le (second_pass_exprs C R l) (second_pass_exprs C R' l).
Proof. induction l; cbn [second_pass_exprs]; les. Qed.
Hint Resolve second_pass_exprs_le : le.
Lemma second_pass_output_le e : le (second_pass_output C R e) (second_pass_output C R' e).
Proof. unfold second_pass_output. les. Qed.
Hint Resolve second_pass_output_le : le.
Lemma second_pass_outputs_le l : le (second_pass_outputs C R l) (second_pass_outputs C R' l).
Proof. induction l; cbn [second_pass_outputs]; les. Qed.
Hint Resolve second_pass_outputs_le : le.
Lemma run_second_pass_le : le (run_second_pass C R) (run_second_pass C R').
Proof. unfold run_second_pass. les. Qed.

Lemma emit_mask_le l : le (emit_mask C R l) (emit_mask C R' l).
Proof. induction l; cbn [emit_mask]; les. Qed.
Hint Resolve emit_mask_le : le.
Lemma bitmap_internal_le b p r : le (bitmap_internal C R b p r) (bitmap_internal C R' b p r).
Proof. unfold bitmap_internal. les. Qed.
Hint Resolve bitmap_internal_le : le.
Lemma header_token_le r p : le (header_token C R r p) (header_token C R' r p).
Proof. unfold header_token. les. Qed.
Hint Resolve header_token_le : le.
Lemma header_tokens_le r l : le (header_tokens C R r l) (header_tokens C R' r l).
Proof. induction l; cbn [header_tokens]; les. Qed.
Hint Resolve header_tokens_le : le.
Lemma bitmap_header_le r : le (bitmap_header C R r) (bitmap_header C R' r).
Proof. unfold bitmap_header. les. Qed.
Hint Resolve bitmap_header_le : le.
Lemma strips_le f : forall b p r m w, le (strips C R f b p r m w) (strips C R' f b p r m w).
Proof. induction f; intros; cbn [strips]; les. Qed.
Hint Resolve strips_le : le.
Lemma bitmap_body_le b p r m w : le (bitmap_body C R b p r m w) (bitmap_body C R' b p r m w).
Proof. unfold bitmap_body. les. Qed.
Hint Resolve bitmap_body_le : le.
Lemma map_loop_le f : forall f' b p n w h pad l t c k, (f <= f')%nat ->
  le (map_loop C R f b p n w h pad l t c k) (map_loop C R' f' b p n w h pad l t c k).
Proof.
  induction f; intros f' b p n w h pad l t c k Hf; [cbn [map_loop]; les|].
  destruct f' as [|f']; [lia|]. cbn [map_loop]. les; apply IHf; lia.
Qed.
Hint Resolve map_loop_le : le.
Hint Resolve fle_n : le.
Lemma parse_all_le l : le (parse_all R l) (parse_all R' l).
Proof. induction l; cbn [parse_all]; les. Qed.
Hint Resolve parse_all_le : le.
Lemma handle_bitmap_le f : le (handle_bitmap C R f) (handle_bitmap C R' f).
Proof. unfold handle_bitmap. les. Qed.
Hint Resolve handle_bitmap_le : le.

Lemma skip_inner_le f : forall f' w l a b, (f <= f')%nat -> le (skip_inner f w l a b) (skip_inner f' w l a b).
Proof.
  induction f; intros f' w l a b Hf; [cbn [skip_inner]; les|].
  destruct f' as [|f']; [lia|]. cbn [skip_inner]. les; apply IHf; lia.
Qed.
Hint Resolve skip_inner_le : le.
Lemma skip_until_loop_le f : forall u w l n p, le (skip_until_loop R f u w l n p) (skip_until_loop R' f u w l n p).
Proof. induction f; intros; cbn [skip_until_loop]; les. Qed.
Hint Resolve skip_until_loop_le : le.
Lemma skip_until_le u w p : le (skip_until R u w p) (skip_until R' u w p).
Proof. unfold skip_until. les. Qed.
Hint Resolve skip_until_le : le.
Lemma do_if_le p c : le (do_if R p c) (do_if R' p c).
Proof. unfold do_if. les. Qed.
Hint Resolve do_if_le : le.
Lemma handle_preop_if_le p : le (handle_preop_if R p) (handle_preop_if R' p).
Proof. unfold handle_preop_if. les. Qed.
Hint Resolve handle_preop_if_le : le.
Lemma concat_loop_le f : forall e p, le (concat_loop C R f e p) (concat_loop C R' f e p).
Proof. induction f; intros; cbn [concat_loop]; les. Qed.
Hint Resolve concat_loop_le : le.
Lemma preop_define_le p : le (preop_define C R p) (preop_define C R' p).
Proof. unfold preop_define. les. Qed.
Hint Resolve preop_define_le : le.
Lemma preop_include_le p : le (preop_include C R p) (preop_include C R' p).
Proof. unfold preop_include. les. Qed.
Hint Resolve preop_include_le : le.
Lemma preop_ifdef_le w p : le (preop_ifdef C R w p) (preop_ifdef C R' w p).
Proof. unfold preop_ifdef. les. Qed.
Hint Resolve preop_ifdef_le : le.
Lemma preop_macro_le p : le (preop_macro C R p) (preop_macro C R' p).
Proof. unfold preop_macro. les. Qed.
Hint Resolve preop_macro_le : le.
Lemma preop_defcont_le b p : le (preop_defcont C R b p) (preop_defcont C R' b p).
Proof. unfold preop_defcont. les. Qed.
Hint Resolve preop_defcont_le : le.
Lemma skip_quiet_le w p : le (skip_quiet R w p) (skip_quiet R' w p).
Proof. unfold skip_quiet. les. Qed.
Hint Resolve skip_quiet_le : le.
Lemma handle_preop_le p : le (handle_preop C R p) (handle_preop C R' p).
Proof. unfold handle_preop. les. Qed.

Lemma write_operands_le pat : forall a s z b, le (write_operands C R pat a s z b) (write_operands C R' pat a s z b).
Proof. induction pat; intros; cbn [write_operands]; les. Qed.
Hint Resolve write_operands_le : le.
Lemma write_instruction_data_le i a s : le (write_instruction_data C R i a s) (write_instruction_data C R' i a s).
Proof. unfold write_instruction_data. les. Qed.
Hint Resolve write_instruction_data_le : le.
Lemma handle_opcode_le b p o s : le (handle_opcode C R b p o s) (handle_opcode C R' b p o s).
Proof. unfold handle_opcode. les. Qed.
Hint Resolve handle_opcode_le : le.
Lemma macro_lines_le f : forall f' p, (f <= f')%nat -> le (macro_lines R f p) (macro_lines R' f' p).
Proof.
  induction f; intros f' p Hf; [cbn [macro_lines]; les|].
  destruct f' as [|f']; [lia|]. cbn [macro_lines]. les; apply IHf; lia.
Qed.
Hint Resolve macro_lines_le : le.
Lemma run_macro_le p r : le (run_macro C R p r) (run_macro C R' p r).
Proof. unfold run_macro. les. Qed.
Hint Resolve run_macro_le : le.
Lemma fcreate_run_le : le (fcreate_run C R) (fcreate_run C R').
Proof. unfold fcreate_run. les. Qed.
Hint Resolve fcreate_run_le : le.
Lemma fcreate_buf_le p : le (fcreate_buf R p) (fcreate_buf R' p).
Proof. unfold fcreate_buf. les. Qed.
Hint Resolve fcreate_buf_le : le.
Lemma fcreate_wr_le p : le (fcreate_wr R p) (fcreate_wr R' p).
Proof. unfold fcreate_wr. les. Qed.
Hint Resolve fcreate_wr_le : le.
Lemma handle_opcode_or_macro_le p : le (handle_opcode_or_macro C R p) (handle_opcode_or_macro C R' p).
Proof. unfold handle_opcode_or_macro. les. Qed.
Hint Resolve handle_opcode_or_macro_le : le.

Lemma emit_define_le t n r p : le (emit_define C R t n r p) (emit_define C R' t n r p).
Proof. unfold emit_define. les. Qed.
Hint Resolve emit_define_le : le.
Lemma emit_word_le w t s : le (emit_word C R w t s) (emit_word C R' w t s).
Proof. unfold emit_word. les. Qed.
Hint Resolve emit_word_le : le.
Lemma emit_loop_le f : forall t s e p, le (emit_loop C R f t s e p) (emit_loop C R' f t s e p).
Proof. induction f; intros; cbn [emit_loop]; les. Qed.
Hint Resolve emit_loop_le : le.
Lemma parse_emit_string_le p t : le (parse_emit_string C R p t) (parse_emit_string C R' p t).
Proof. unfold parse_emit_string. les. Qed.
Lemma dir_org_le p : le (dir_org R p) (dir_org R' p).
Proof. unfold dir_org. les. Qed.
Hint Resolve dir_org_le : le.
Lemma dir_fill_le p : le (dir_fill R p) (dir_fill R' p).
Proof. unfold dir_fill. les. Qed.
Hint Resolve dir_fill_le : le.
Lemma dir_addinstr_le p : le (dir_addinstr C R p) (dir_addinstr C R' p).
Proof. unfold dir_addinstr. les. Qed.
Hint Resolve dir_addinstr_le : le.
Lemma dir_echo_file_le p : le (dir_echo_file C R p) (dir_echo_file C R' p).
Proof. unfold dir_echo_file. les. Qed.
Hint Resolve dir_echo_file_le : le.
Lemma dir_echo_le p : le (dir_echo C R p) (dir_echo C R' p).
Proof. unfold dir_echo. les. Qed.
Hint Resolve dir_echo_le : le.
Lemma dir_equ_le p : le (dir_equ R p) (dir_equ R' p).
Proof. unfold dir_equ. les. Qed.
Hint Resolve dir_equ_le : le.
Lemma dir_show_le p : le (dir_show C R p) (dir_show C R' p).
Proof. unfold dir_show. les. Qed.
Hint Resolve dir_show_le : le.
Lemma dir_seek_le p : le (dir_seek C R p) (dir_seek C R' p).
Proof. unfold dir_seek. les. Qed.
Hint Resolve dir_seek_le : le.
Lemma dir_assume_le p : le (dir_assume C R p) (dir_assume C R' p).
Proof. unfold dir_assume. les. Qed.
Hint Resolve dir_assume_le : le.
Lemma handle_directive_le p : le (handle_directive C R p) (handle_directive C R' p).
Proof. unfold handle_directive. les. Qed.
Hint Resolve handle_directive_le : le.

Lemma equate_le p : le (equate R p) (equate R' p).
Proof. unfold equate. les. Qed.
Hint Resolve equate_le : le.
Lemma line_sec_le f : forall p, le (line_sec C R f p) (line_sec C R' f p).
Proof. induction f; intros; cbn [line_sec]; les. Qed.
Hint Resolve line_sec_le : le.
Lemma line_loop_le f : forall f' p, (f <= f')%nat -> le (line_loop C R f p) (line_loop C R' f' p).
Proof.
  induction f; intros f' p Hf; [cbn [line_loop]; les|].
  destruct f' as [|f']; [lia|]. cbn [line_loop]. les; apply IHf; lia.
Qed.
Hint Resolve line_loop_le : le.
Lemma run_first_pass_line_le p : le (run_first_pass_line C R p) (run_first_pass_line C R' p).
Proof. unfold run_first_pass_line. les. Qed.
Lemma pass_loop_le f : forall f' p, (f <= f')%nat -> le (pass_loop R f p) (pass_loop R' f' p).
Proof.
  induction f; intros f' p Hf; [cbn [pass_loop]; les|].
  destruct f' as [|f']; [lia|]. cbn [pass_loop]. les; apply IHf; lia.
Qed.
Hint Resolve pass_loop_le : le.
Lemma run_first_pass_le p : le (run_first_pass C R p) (run_first_pass C R' p).
Proof. unfold run_first_pass. les. Qed.


Lemma lab_defines_le t : forall l, le (lab_defines R t l) (lab_defines R' t l).
Proof. induction t; intros; cbn [lab_defines]; les. Qed.
Hint Resolve lab_defines_le : le.
Lemma write_labels_le f : le (write_labels R f) (write_labels R' f).
Proof. unfold write_labels. les. Qed.
Hint Resolve write_labels_le : le.
Hint Resolve run_second_pass_le run_first_pass_le : le.
Lemma run_assembly_le src out : le (run_assembly C R src out) (run_assembly C R' src out).
Proof. unfold run_assembly. les. Qed.

End Mono.

Lemma knot_step C n : fle (knot C n) (knot C (S n)).
Proof.
  induction n as [|n IH].
  - split; intros; simpl; try lia; apply le_nofuel.
  - change (knot C (S (S n))) with
      (let R := knot C (S n) in
       mkfns (S (S n)) (parse_num_full C R) (eval C R) (expand_expr_full C R) (handle_preop C R)
         (handle_preop_if R) (run_first_pass_line C R) (run_first_pass C R) (parse_emit_string C R)).
    split; intros; cbn [f_n f_full f_eval f_expand f_preop f_if f_line f_pass f_emit].
    + simpl. lia.
    + now apply parse_num_full_le.
    + now apply eval_le.
    + now apply expand_expr_full_le.
    + now apply handle_preop_le.
    + now apply handle_preop_if_le.
    + now apply run_first_pass_line_le.
    + now apply run_first_pass_le.
    + now apply parse_emit_string_le.
Qed.
Lemma fle_refl R : fle R R.
Proof. split; intros; try lia; apply le_refl. Qed.
Lemma le_trans {A} (a b c : M A) : le a b -> le b c -> le a c.
Proof. intros H1 H2 s. destruct (H1 s) as [E|E]; [left; exact E|]. rewrite E. apply H2. Qed.
Lemma fle_trans R1 R2 R3 : fle R1 R2 -> fle R2 R3 -> fle R1 R3.
Proof.
  intros H1 H2. split; intros.
  - pose proof (fle_n _ _ H1). pose proof (fle_n _ _ H2). lia.
  - eapply le_trans; [apply (fle_full _ _ H1)|apply (fle_full _ _ H2)].
  - eapply le_trans; [apply (fle_eval _ _ H1)|apply (fle_eval _ _ H2)].
  - eapply le_trans; [apply (fle_expand _ _ H1)|apply (fle_expand _ _ H2)].
  - eapply le_trans; [apply (fle_preop _ _ H1)|apply (fle_preop _ _ H2)].
  - eapply le_trans; [apply (fle_if _ _ H1)|apply (fle_if _ _ H2)].
  - eapply le_trans; [apply (fle_line _ _ H1)|apply (fle_line _ _ H2)].
  - eapply le_trans; [apply (fle_pass _ _ H1)|apply (fle_pass _ _ H2)].
  - eapply le_trans; [apply (fle_emit _ _ H1)|apply (fle_emit _ _ H2)].
Qed.
Lemma knot_mono C n m : (n <= m)%nat -> fle (knot C n) (knot C m).
Proof.
  induction 1; [apply fle_refl|]. eapply fle_trans; [exact IHle|apply knot_step].
Qed.

(** A result reached with some fuel is reached with any larger amount. *)
Lemma le_ok {A} (m m' : M A) s r : le m m' -> m s = r -> r <> NoFuel -> m' s = r.
Proof. intros H E N. destruct (H s) as [E'|E']; [congruence|]. congruence. Qed.

(** The outcome of the program does not depend on the fuel once there is enough of it. *)
Lemma main_mono n m w argv : (n <= m)%nat -> main n w argv <> OutOfFuel -> main m w argv = main n w argv.
Proof.
  intros Hn. unfold main. destruct argv as [|a0 argv]; [reflexivity|].
  destruct (read_args w args0 (a0 :: argv)) as [a|c|u]; try reflexivity.
  destruct (a_input a) as [input|]; [|reflexivity].
  set (out := match a_output a with Some o => o | None => _ end).
  set (defs := match a_defs a with Some d => d | None => _ end).
  set (s0 := init_state _ _ _ _).
  destruct (run_assembly_le (mkconf w a) _ _ (knot_mono (mkconf w a) n m Hn) (a_line a) out s0) as [E|E].
  - rewrite E. congruence.
  - rewrite E. reflexivity.
Qed.
