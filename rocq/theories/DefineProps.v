(** Properties of symbols made by #define that are used in expressions: C50. *)
From Verif Require Import Base BaseProofs State MonadProofs UtilsModel ErrorsModel StorageModel ParserModel Knot MainModel
  UtilsSpec UtilsProofs PassTwoSpec StorageProofs ParserSpec ParserProofs ParserProps DefineProofs Validate Programs.

(** An expression over labels, defined symbols and unknown names has its meaning. *)
Theorem c50_defined_names : forall C n s names need e te w1 w2 rest,
  writes e te -> Forall UtilsSpec.blank w1 -> Forall UtilsSpec.blank w2 -> line_end rest ->
  s_erroc s = false -> sessions_ok s ->
  (wt need e <= 19)%nat -> (wt need e < n)%nat ->
  (forall m, mentions m e -> resolves C s names m \/ exists v, names m = Some v /\ meaning C s m (need m) v) ->
  let result := parse_num (knot C n) (w1 ++ te ++ w2 ++ rest) s in
  match value (c_wrap C) (s_pc s) names e with
  | Val v => result = Ok (Some v) (set_depth 0 (set_fwd false s))
  | Err code => exists d, result = Ok None (noted false code (set_depth d (set_fwd (code =? 262) s)))
  | Undefined => result = Undef UB_overflow
  end.
Proof. exact named_value. Qed.
Print Assumptions c50_defined_names.

(** Two symbols, one defined by the other, over a label: [twice*twice] is 19*19 although the text of
    [twice] is [size+1]. *)
Definition c50_state : st :=
  set_defines [(zs "SIZE", mkdefine (zs "SIZE") 0 [] (Some (zs " lab*2")) []); (zs "TWICE", mkdefine (zs "TWICE") 0 [] (Some (zs "size+1 ")) [])] c01_state.
Lemma w_nm n : name_ok n -> writes_term (Leaf NoSign (Name n)) n.
Proof. intros H. change n with (sign_text NoSign ++ [] ++ atom_text (Name n)) at 2. constructor; [exact H|constructor|reflexivity]. Qed.
Lemma nm_ok c u : name_start c -> u <> [] -> forallb (fun c => (48 <=? c) && (c <=? 57) || (65 <=? c) && (c <=? 90) || (97 <=? c) && (c <=? 122)) u = true -> name_ok (c :: u).
Proof.
  intros H N F. split; [change (zs "_") with [95]; congruence|]. split; [eauto|]. constructor; [unfold name_start in H; unfold name_char; cbn; lia|].
  apply Forall_forall. intros x Hx. rewrite forallb_forall in F. specialize (F x Hx). cbv beta in F. unfold name_char. lia.
Qed.
Ltac nm := match goal with |- name_ok ?l => let v := eval vm_compute in l in change (name_ok v) end; apply nm_ok; [unfold name_start; lia|discriminate|reflexivity].
Lemma w_dec ds : ds <> [] -> forallb (fun c => (48 <=? c) && (c <=? 57)) ds = true -> writes_term (Leaf NoSign (Num (Decimal ds))) ds.
Proof.
  intros N F. apply (W_leaf NoSign [] (Num (Decimal ds))); [|constructor|reflexivity]. split; [exact N|]. split; [|exact I]. cbn. apply Forall_forall. intros c Hc.
  rewrite forallb_forall in F. specialize (F c Hc). cbv beta in F. exists (c - 48). unfold digit_value. rewrite F. split; [reflexivity|lia].
Qed.
Definition c50_size : expr := Bin (Single (Leaf NoSign (Name (zs "lab")))) Times (Leaf NoSign (Num (Decimal (zs "2")))).
Definition c50_twice : expr := Bin (Single (Leaf NoSign (Name (zs "size")))) Plus (Leaf NoSign (Num (Decimal (zs "1")))).
Definition c50_square : expr := Bin (Single (Leaf NoSign (Name (zs "twice")))) Times (Leaf NoSign (Name (zs "twice"))).
Definition c50_conf : cfg := mkconf (world_of []) args0.
Lemma c50_size_is : meaning c50_conf c50_state (zs "size") 1 18.
Proof.
  apply (M_define c50_conf c50_state (zs "size") (RG (zs "SIZE")) (mkdefine (zs "SIZE") 0 [] (Some (zs " lab*2")) []) [32] (zs "lab*2") [] c50_size (fun _ => 0%nat) (fun _ => 9) 18); try reflexivity; try discriminate.
  - right. split; [reflexivity|]. split; [reflexivity|]. split; [discriminate|]. split; [discriminate|reflexivity].
  - apply Forall_cons; [unfold UtilsSpec.blank; lia|constructor].
  - apply (W_bin _ (zs "lab") [] Times [] _ (zs "2")); [constructor; apply w_nm; nm|constructor|constructor|now apply w_dec|discriminate].
  - constructor.
  - cbn. repeat (apply Forall_cons; [unfold plain_char; cbn; lia|]). apply Forall_nil.
  - intros m H. cbn [c50_size mentions term_mentions] in H. destruct H as [H|H]; [|destruct H]. cbn in H. subst m. apply (M_label c50_conf c50_state (zs "lab") (mklabel (zs "LAB") 1 [] 9)); reflexivity.
Qed.
Lemma c50_twice_is : meaning c50_conf c50_state (zs "twice") 2 19.
Proof.
  apply (M_define c50_conf c50_state (zs "twice") (RG (zs "TWICE")) (mkdefine (zs "TWICE") 0 [] (Some (zs "size+1 ")) []) [] (zs "size+1") [32] c50_twice (fun m => match m with [] => 0%nat | _ => 1%nat end) (fun _ => 18) 19); try reflexivity; try discriminate.
  - right. split; [reflexivity|]. split; [reflexivity|]. split; [discriminate|]. split; [discriminate|reflexivity].
  - constructor.
  - apply (W_bin _ (zs "size") [] Plus [] _ (zs "1")); [constructor; apply w_nm; nm|constructor|constructor|now apply w_dec|discriminate].
  - apply Forall_cons; [unfold UtilsSpec.blank; lia|constructor].
  - cbn. repeat (apply Forall_cons; [unfold plain_char; cbn; lia|]). apply Forall_nil.
  - intros m H. cbn [c50_twice mentions term_mentions] in H. destruct H as [H|H]; [|destruct H]. cbn in H. subst m. exact c50_size_is.
Qed.
Example c50_case :
  meaning c50_conf c50_state (zs "twice") 2 19 /\ value false (s_pc c50_state) (fun _ => Some 19) c50_square = Val 361 /\
  parse_num (knot c50_conf 3) (zs "twice * twice") c50_state = Ok (Some 361) (set_depth 0 (set_fwd false c50_state)).
Proof.
  split; [exact c50_twice_is|]. split; [reflexivity|].
  assert (B : Forall UtilsSpec.blank [32]) by (apply Forall_cons; [unfold UtilsSpec.blank; lia|constructor]).
  refine (c50_defined_names c50_conf 3 c50_state (fun _ => Some 19) (fun _ => 2%nat) c50_square (zs "twice * twice") [] [] [] _ (Forall_nil _) (Forall_nil _) (or_introl eq_refl) eq_refl (Forall_nil _) _ _ _).
  - apply (W_bin _ (zs "twice") [32] Times [32] _ (zs "twice")); [constructor; apply w_nm; nm|exact B|exact B|apply w_nm; nm|discriminate].
  - cbn. lia.
  - cbn. lia.
  - intros m H. right. exists 19. split; [reflexivity|]. assert (E : zs "twice" = m) by (cbn [c50_square mentions term_mentions] in H; tauto). subst m. exact c50_twice_is.
Qed.
