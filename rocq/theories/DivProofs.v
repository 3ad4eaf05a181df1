(** No execution of the assembler performs an undefined division. *)
From Verif Require Import Base BaseProofs State UtilsModel ErrorsModel StorageModel ParserModel PassTwoModel
  PreopModel PassOneModel DirectiveModel Knot ExportModel MainModel MonadProofs Whole.

Definition nodiv (A : Type) (m : M A) : Prop := forall s, m s <> Undef UB_divide.

Lemma nodiv_bind A B (m : M A) (k : A -> M B) : nodiv A m -> (forall a, nodiv B (k a)) -> nodiv B (bind m k).
Proof.
  intros Hm Hk s. unfold bind. specialize (Hm s).
  destruct (m s) as [a s1|c s1|w|]; try discriminate; [apply Hk|congruence].
Qed.

Ltac nd1 :=
  match goal with
  | |- nodiv _ (bind _ _) => apply nodiv_bind; [|intros ?]
  | |- nodiv _ (whenM ?b _) => unfold whenM; destruct b
  | |- nodiv _ (match ?x with _ => _ end) => destruct x
  | |- nodiv _ (let '_ := ?x in _) => destruct x
  | |- nodiv _ _ => solve [intros ?; discriminate]
  end.
Ltac nds := repeat (cbv beta zeta; first [nd1 | progress intros]).

Lemma nodiv_get_define r : nodiv _ (get_define r).
Proof. intros s. unfold get_define. destruct (lookup_ref s r); discriminate. Qed.
Lemma nodiv_put_define r d : nodiv _ (put_define r d).
Proof.
  intros s. unfold put_define. destruct (lookup_ref s r); [|discriminate].
  destruct r as [n|id n]; [discriminate|]. destruct (find_set id (s_args s)); discriminate.
Qed.
Lemma nodiv_set_contents r t : nodiv _ (set_contents r t).
Proof. unfold set_contents. apply nodiv_bind; [apply nodiv_get_define|intros]. apply nodiv_put_define. Qed.
Lemma nodiv_search_defines C n l : nodiv _ (search_defines C n l).
Proof. pose proof nodiv_set_contents. unfold search_defines. nds; apply H. Qed.
Lemma nodiv_add_define C n l : nodiv _ (add_define C n l).
Proof.
  unfold add_define, search_labels. pose proof nodiv_search_defines. pose proof nodiv_get_define.
  pose proof nodiv_put_define. nds; auto.
Qed.

Lemma nodiv_replay C n f : nodiv _ (replay_session C n f).
Proof. unfold replay_session. nds. Qed.
Lemma nodiv_end n : nodiv _ (end_session n).
Proof. unfold end_session. nds. Qed.
Lemma nodiv_closed C : closed C (fun _ => nodiv) (fun _ _ => nodiv).
Proof.
  split; intros; auto using nodiv_bind, nodiv_replay, nodiv_end, nodiv_get_define, nodiv_put_define, nodiv_add_define;
    try (intros s; discriminate).
  - apply nodiv_bind; [unfold start_session; nds|]. intros; apply H.
  - apply nodiv_bind; [apply nodiv_replay|]. intros. apply nodiv_bind; [apply nodiv_end|]. nds.
  - intros s E. injection E as E. congruence.
  - intros s E. injection E as E. congruence.
  - unfold write_out. nds.
  - unfold set_define. pose proof nodiv_get_define. pose proof nodiv_set_contents.
    pose proof nodiv_add_define. nds; auto.
  - unfold add_label. pose proof nodiv_search_defines. nds; auto.
  - unfold set_label_value. nds.
  - unfold add_arg. nds.
  - unfold remove_arg_set. nds.
  - rename H into H1, H0 into H2. destruct o; unfold apply_op, int_res, div_undefined; simpl in H1, H2;
      try (rewrite H1; cbn [orb]; rewrite H2); nds.
Qed.

Lemma nodiv_write_file C mem len f : nodiv _ (write_file C mem len f).
Proof. unfold write_file, makeapp, makeprgm_warnings. nds. Qed.

Lemma nodiv_run_assembly C n src out : nodiv _ (run_assembly C (knot C n) src out).
Proof.
  unfold run_assembly, write_labels.
  pose proof (nodiv_closed C) as HC. pose proof (knot_P C _ _ HC n) as HR.
  pose proof (fun p => run_first_pass_P C _ _ HC _ HR p 0). pose proof (run_second_pass_P C _ _ HC _ HR 0).
  pose proof (fun t l => lab_defines_P C _ _ HC _ HR t l 0). pose proof (nodiv_write_file C).
  nds; auto using nodiv_replay, nodiv_end; unfold start_session; nds.
Qed.

Lemma nodiv_arg_define w a p : arg_define w a p <> AUndef UB_divide.
Proof.
  unfold arg_define. match goal with |- (match ?m with _ => _ end) <> _ => set (r := m) end.
  assert (H : r <> Undef UB_divide).
  { subst r. match goal with |- bind ?m ?k ?s <> _ =>
      assert (Hb : nodiv _ (bind m k)); [|apply Hb] end.
    unfold read_expr, read_expr'. pose proof nodiv_add_define. pose proof nodiv_set_contents. nds; auto. }
  destruct r; try discriminate. congruence.
Qed.
Lemma nodiv_read_args w l : forall a, read_args w a l <> AUndef UB_divide.
Proof.
  assert (H : forall n l a, (length l <= n)%nat -> read_args w a l <> AUndef UB_divide).
  { induction n; intros [|x l0] a Hl; simpl in Hl; try lia; try discriminate.
    cbn [read_args].
    repeat match goal with
      | |- AGo _ <> _ => discriminate
      | |- AExit _ <> _ => discriminate
      | |- read_args _ _ _ <> _ => apply IHn; simpl in *; lia
      | |- context [match arg_define ?w ?a ?d with _ => _ end] =>
          pose proof (nodiv_arg_define w a d); destruct (arg_define w a d)
      | |- (if ?b then _ else _) <> _ => destruct b
      | |- match ?x with _ => _ end <> _ => destruct x
      | |- (let _ := _ in _) <> _ => cbv zeta
      end; congruence. }
  intros a. apply (H (length l) l a). lia.
Qed.
Lemma nodiv_main n w argv : main n w argv <> Crash UB_divide.
Proof.
  unfold main. destruct argv as [|x argv]; [discriminate|].
  pose proof (nodiv_read_args w (x :: argv) args0).
  destruct (read_args w args0 (x :: argv)) as [a| |]; try discriminate; [|congruence].
  destruct (a_input a) as [input|]; [|discriminate].
  match goal with |- match ?m with _ => _ end <> _ => pose proof (nodiv_run_assembly (mkconf w a) n (a_line a)
    (match a_output a with Some o => o | None => change_extension input (zs "bin") end)) as Hr;
    specialize (Hr (init_state (a_ez80 a) input (a_dirs a)
      (match a_defs a with Some d => d | None => init_defines input end)));
    destruct m; try discriminate end.
  intros E. injection E as ->. apply Hr. reflexivity.
Qed.
