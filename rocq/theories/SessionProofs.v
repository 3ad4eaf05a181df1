(** Whole-assembler invariants: relations between the states before and after, and the
    discipline of the error sessions. *)
From Verif Require Import Base BaseProofs State UtilsModel ErrorsModel StorageModel ParserModel PassTwoModel
  PreopModel PassOneModel DirectiveModel Knot ExportModel MainModel MonadProofs Whole.

(** * Relations kept by every step *)

Definition keeps (rel : st -> st -> Prop) (A : Type) (m : M A) : Prop :=
  forall s, match m s with Ok _ s' | Exit _ s' => rel s s' | _ => True end.

Record step_rel (rel : st -> st -> Prop) : Prop := mkstep {
  r_refl : forall s, rel s s;
  r_trans : forall a b c, rel a b -> rel b c -> rel a c;
  r_plain : forall f s, plain f -> rel s (f s);
  r_errs : forall v s, rel s (set_errs v s);
  r_sess : forall v s, rel s (set_sess v s);
  r_printed : forall v s, rel s (set_printed v s);
  r_exitc : forall n s, 1 <= n <= 3 -> rel s (set_exitc (if s_exitc s <? n then n else s_exitc s) s);
  r_erroc : forall s, rel s (set_erroc true s);
  r_mem : forall v s, rel s (set_mem (put_at (Z.to_nat (s_pos s)) (u8 v) (s_mem s)) s);
  r_defines : forall v s, rel s (set_defines v s);
  r_labels : forall v s, rel s (set_labels v s);
  r_args : forall v s, rel s (set_args v s);
  r_nextid : forall v s, rel s (set_nextid v s) }.

Section Rel.
Variable rel : st -> st -> Prop.
Hypothesis HR : step_rel rel.

Lemma keeps_bind A B (m : M A) (k : A -> M B) : keeps rel A m -> (forall a, keeps rel B (k a)) -> keeps rel B (bind m k).
Proof.
  intros Hm Hk s. unfold bind. specialize (Hm s). destruct (m s) as [a s1|c s1|w|]; try exact Hm; try exact I.
  specialize (Hk a s1). destruct (k a s1); try exact I; eapply (r_trans _ HR); eauto.
Qed.
Lemma keeps_ret A (a : A) : keeps rel A (ret a).
Proof. intros s. apply (r_refl _ HR). Qed.
Lemma keeps_get A (f : st -> A) : keeps rel A (get f).
Proof. intros s. apply (r_refl _ HR). Qed.
Lemma keeps_upd f : (forall s, rel s (f s)) -> keeps rel unit (upd f).
Proof. intros H s. apply H. Qed.
Lemma keeps_undef A w : keeps rel A (undef w).
Proof. intros s. exact I. Qed.
Lemma keeps_problem w c : keeps rel _ (set_problem w c).
Proof. intros s. apply (r_errs _ HR). Qed.
Lemma keeps_raise n : 1 <= n <= 3 -> keeps rel _ (raise_exit n).
Proof. intros H s. now apply (r_exitc _ HR). Qed.
Lemma keeps_get_define r : keeps rel _ (get_define r).
Proof. intros s. unfold get_define. destruct (lookup_ref s r); [apply (r_refl _ HR)|exact I]. Qed.
Lemma keeps_put_define r d : keeps rel _ (put_define r d).
Proof.
  intros s. unfold put_define. destruct (lookup_ref s r); [|exact I].
  destruct r as [n|id n]; [apply (r_defines _ HR)|]. destruct (find_set id (s_args s)); [apply (r_args _ HR)|exact I].
Qed.
Ltac k1 :=
  match goal with
  | |- keeps _ _ (bind _ _) => apply keeps_bind; [|intros ?]
  | |- keeps _ _ (ret _) => apply keeps_ret
  | |- keeps _ _ (get _) => apply keeps_get
  | |- keeps _ _ (undef _) => apply keeps_undef
  | |- keeps _ _ (set_problem _ _) => apply keeps_problem
  | |- keeps _ _ (get_define _) => apply keeps_get_define
  | |- keeps _ _ (put_define _ _) => apply keeps_put_define
  | |- keeps _ _ (raise_exit _) => apply keeps_raise; unfold EXIT_WARNINGS, EXIT_ERRORS, EXIT_FATAL_ERROR; lia
  | |- keeps _ _ (upd _) => apply keeps_upd; intros; first
      [apply (r_errs _ HR)|apply (r_sess _ HR)|apply (r_printed _ HR)|apply (r_defines _ HR)|apply (r_labels _ HR)
      |apply (r_args _ HR)|apply (r_nextid _ HR)|apply (r_plain _ HR); solve [constructor]]
  | |- keeps _ _ (whenM ?b _) => unfold whenM; destruct b
  | |- keeps _ _ (match ?x with _ => _ end) => destruct x
  | |- keeps _ _ (let '_ := ?x in _) => destruct x
  end.
Ltac ks := repeat (cbv beta zeta; first [k1 | progress unfold set_error, set_warning, show_error, show_warning | progress intros]).
Lemma keeps_start : keeps rel _ start_session.
Proof. unfold start_session. ks. Qed.
Lemma keeps_replay C n f : keeps rel _ (replay_session C n f).
Proof. unfold replay_session. ks. Qed.
Lemma keeps_end n : keeps rel _ (end_session n).
Proof.
  unfold end_session. ks. intros s. apply (r_refl _ HR).
Qed.
Lemma keeps_set_contents r t : keeps rel _ (set_contents r t).
Proof. unfold set_contents. ks. Qed.
Lemma keeps_search_defines C n l : keeps rel _ (search_defines C n l).
Proof. pose proof keeps_set_contents. unfold search_defines. ks; auto. Qed.
Lemma keeps_add_define C n l : keeps rel _ (add_define C n l).
Proof. unfold add_define, search_labels. pose proof keeps_search_defines. ks; auto. Qed.
Lemma keeps_closed C : closed C (fun _ => keeps rel) (fun _ _ => keeps rel).
Proof.
  split; intros; auto using keeps_bind, keeps_ret, keeps_get, keeps_undef, keeps_problem, keeps_raise,
    keeps_start, keeps_replay, keeps_end, keeps_get_define, keeps_put_define, keeps_add_define.
  - intros s. exact I.
  - apply keeps_upd. intros. now apply (r_plain _ HR).
  - apply keeps_upd. intros. apply (r_erroc _ HR).
  - intros s. unfold write_out. rewrite bind_get. destruct ((0 <=? s_pos s) && (s_pos s <? OUTPUT_BUF_SIZE)); [|exact I].
    rewrite bind_get, bind_upd. simpl. eapply (r_trans _ HR); [apply (r_mem _ HR v)|].
    apply (r_plain _ HR (set_pos (s_pos s + 1))). constructor.
  - unfold remove_define. ks.
  - unfold set_define. pose proof keeps_set_contents. pose proof keeps_add_define. ks; auto.
  - unfold add_label. pose proof keeps_search_defines. ks; auto.
  - unfold set_label_value. ks.
  - unfold add_arg_set. ks.
  - unfold add_arg. ks.
  - unfold remove_arg_set. ks.
  - unfold apply_op, int_res. destruct o; ks.
Qed.
End Rel.

(** No function of the passes writes an output file, and the exit status only grows. *)
Definition same_out (s s' : st) : Prop := s_outfiles s' = s_outfiles s.
Lemma same_out_rel : step_rel same_out.
Proof.
  split; unfold same_out; intros; try reflexivity; [congruence|]. destruct H; reflexivity.
Qed.
Definition grows (s s' : st) : Prop := s_exitc s <= s_exitc s' /\ (0 <= s_exitc s <= 3 -> 0 <= s_exitc s' <= 3).
Lemma grows_rel : step_rel grows.
Proof.
  split; unfold grows; intros; simpl; try lia; [destruct H; simpl; lia|]. destruct (s_exitc s <? n) eqn:E; lia.
Qed.

(** * Session discipline *)

(** The recorded problems, newest first, belong to open sessions, innermost first. *)
Fixpoint ordered (k : Z) (l : list err) : Prop :=
  match l with
  | [] => True
  | e :: l' => 1 <= e_sess e <= k /\ ordered (e_sess e) l'
  end.
Lemma ordered_weak l : forall k k', k <= k' -> ordered k l -> ordered k' l.
Proof. destruct l; simpl; intros; [exact I|]. split; [lia|tauto]. Qed.
Lemma ordered_unlead k l : ordered k l -> ordered (k - 1) (unlead k l).
Proof.
  revert k. induction l as [|e l IH]; intros k H; simpl in *; [exact I|].
  destruct H as (H1 & H2). destruct (e_sess e =? k) eqn:E.
  - apply IH. eapply ordered_weak; [|exact H2]. lia.
  - simpl. split; [lia|assumption].
Qed.
Lemma ordered_replay k l : 2 <= k -> ordered k l -> ordered k (replay_up k l).
Proof.
  intros Hk. assert (G : forall l k', k' <= k -> ordered k' l -> ordered k' (replay_up k l) /\
    (forall e q, l = e :: q -> e_sess e = k -> ordered (k - 1) (replay_up k l))).
  { clear l. induction l as [|e l IH]; intros k' Hk' H; simpl in *; [split; [exact I|discriminate]|].
    destruct H as (H1 & H2). destruct (e_sess e =? k) eqn:E.
    - assert (G : ordered (k - 1) (replay_up k l)).
      { destruct l as [|e2 l]; [exact I|]. destruct (e_sess e2 =? k) eqn:E2.
        - eapply (IH (e_sess e)); [lia|exact H2|reflexivity|lia].
        - simpl. rewrite E2. simpl in H2. simpl. split; [lia|tauto]. }
      split; [simpl; split; [lia|exact G]|]. intros. simpl. split; [lia|exact G].
    - split; [simpl; split; [lia|assumption]|]. intros e' q E' E2. injection E' as <- <-. lia. }
  intros H. now apply G.
Qed.
Definition fatal_err (e : err) : bool := is_fatal (e_code e).
Definition bad (s : st) : Prop := exists e, In e (s_printed s) /\ fatal_err e = true.
Definition live (s : st) : Prop := exists e, In e (s_errs s) /\ e_sess e = 1 /\ fatal_err e = true.
Definition calm (n : Z) (s s' : st) : Prop :=
  ordered n (s_errs s') /\ (bad s' -> bad s \/ live s') /\ (live s -> live s').

Definition Ses (n : Z) (A : Type) (m : M A) : Prop := forall s, s_sess s <= n ->
  match m s with
  | Ok _ s' => s_sess s' <= s_sess s /\
      (s_sess s = n -> s_sess s' = n -> 1 <= n -> ordered n (s_errs s) -> calm n s s')
  | _ => True
  end.
Definition Clo (n m : Z) (A : Type) (c : M A) : Prop := m <= n + 1 -> forall s, s_sess s <= m ->
  match c s with
  | Ok _ s' => s_sess s' <= s_sess s - 1 /\
      (m = n + 1 -> s_sess s = m -> s_sess s' = n -> 1 <= n -> ordered m (s_errs s) -> calm n s s')
  | _ => True
  end.
Lemma calm_refl n s : ordered n (s_errs s) -> calm n s s.
Proof. intros H. repeat split; auto. Qed.
Lemma calm_trans n m a b c : calm m a b -> calm n b c -> calm n a c.
Proof.
  intros (H1 & H2 & H3) (K1 & K2 & K3). repeat split; auto. intros H. destruct (K2 H) as [H'|H']; [|auto].
  destruct (H2 H'); auto.
Qed.

(** Steps that leave the problem list and the printed problems alone. *)
Definition quiet (s s' : st) : Prop :=
  s_sess s' = s_sess s /\ s_errs s' = s_errs s /\ s_printed s' = s_printed s.
Lemma quiet_calm n s s' : quiet s s' -> ordered n (s_errs s) -> calm n s s'.
Proof.
  intros (H1 & H2 & H3) H. unfold calm, bad, live. rewrite H2, H3. auto.
Qed.
Lemma quiet_ses n A (m : M A) : (forall s, match m s with Ok _ s' => quiet s s' | _ => True end) -> Ses n A m.
Proof.
  intros H s Hn. specialize (H s). destruct (m s); try exact I. destruct H as (H1 & H2 & H3). split; [lia|].
  intros. apply quiet_calm; [repeat split|]; assumption.
Qed.
Lemma ses_bind n A B (m : M A) (k : A -> M B) : Ses n A m -> (forall a, Ses n B (k a)) -> Ses n B (bind m k).
Proof.
  intros Hm Hk s Hs. unfold bind. specialize (Hm s Hs). destruct (m s) as [a s1|c s1|w|]; try exact I.
  destruct Hm as (H1 & H2). specialize (Hk a s1 ltac:(lia)). destruct (k a s1); try exact I.
  destruct Hk as (H3 & H4). split; [lia|]. intros E1 E2 E3 E4.
  assert (E : s_sess s1 = n) by lia. specialize (H2 E1 E E3 E4). eapply calm_trans; [exact H2|]. apply H4; auto. apply H2.
Qed.
Lemma ses_ret n A (a : A) : Ses n A (ret a).
Proof. apply quiet_ses. intros s. repeat split. Qed.
Lemma ses_get n A (f : st -> A) : Ses n A (get f).
Proof. apply quiet_ses. intros s. repeat split. Qed.
Lemma ses_upd n f : (forall s, quiet s (f s)) -> Ses n _ (upd f).
Proof. intros H. apply quiet_ses. intros s. apply H. Qed.
Lemma ses_undef n A w : Ses n A (undef w).
Proof. intros s _. exact I. Qed.
Lemma ses_problem n w c : Ses n _ (set_problem w c).
Proof.
  intros s Hs. simpl. split; [lia|]. intros E1 _ E2 H. split; [simpl; split; [lia|]|split].
  - eapply ordered_weak; [|exact H]. lia.
  - intros (e & H1 & H2). left. exists e. auto.
  - intros (e & H1 & H2). exists e. split; [right; assumption|assumption].
Qed.
Lemma ses_raise k n : Ses k _ (raise_exit n).
Proof. apply quiet_ses. intros s. repeat split. Qed.
Lemma ses_get_define n r : Ses n _ (get_define r).
Proof. apply quiet_ses. intros s. unfold get_define. destruct (lookup_ref s r); repeat split. Qed.
Lemma ses_put_define n r d : Ses n _ (put_define r d).
Proof.
  apply quiet_ses. intros s. unfold put_define. destruct (lookup_ref s r); [|exact I].
  destruct r as [x|id x]; [repeat split|]. destruct (find_set id (s_args s)); repeat split.
Qed.
Ltac e1 :=
  match goal with
  | |- Ses _ _ (bind _ _) => apply ses_bind; [|intros ?]
  | |- Ses _ _ (ret _) => apply ses_ret
  | |- Ses _ _ (get _) => apply ses_get
  | |- Ses _ _ (undef _) => apply ses_undef
  | |- Ses _ _ (set_problem _ _) => apply ses_problem
  | |- Ses _ _ (get_define _) => apply ses_get_define
  | |- Ses _ _ (put_define _ _) => apply ses_put_define
  | |- Ses _ _ (raise_exit _) => apply ses_raise
  | |- Ses _ _ (upd _) => apply ses_upd; intros; repeat split
  | |- Ses _ _ (whenM ?b _) => unfold whenM; destruct b
  | |- Ses _ _ (match ?x with _ => _ end) => destruct x
  | |- Ses _ _ (let '_ := ?x in _) => destruct x
  end.
Ltac es := repeat (cbv beta zeta; first [e1 | progress unfold set_error, set_warning, show_error, show_warning, show_fatal_error | progress intros]).
Lemma ses_set_contents n r t : Ses n _ (set_contents r t).
Proof. unfold set_contents. es. Qed.
Lemma ses_search_defines C k n l : Ses k _ (search_defines C n l).
Proof. pose proof (ses_set_contents k). unfold search_defines. es; auto. Qed.
Lemma ses_add_define C k n l : Ses k _ (add_define C n l).
Proof. unfold add_define, search_labels. pose proof (ses_search_defines C k). es; auto. Qed.
Lemma ses_replay C n f : Ses n _ (replay_session C n f).
Proof.
  intros s Hs. unfold replay_session. rewrite bind_get. destruct (n =? 1) eqn:E.
  - rewrite bind_get. simpl. split; [lia|]. intros E1 _ E2 H. repeat split; simpl.
    + assumption.
    + intros (e & H1 & H2). simpl in H1.
      assert (K : In e (s_printed s) \/ In e (replay_print f (s_errs s))).
      { destruct (c_counter C); [auto|]. apply in_app_iff in H1. tauto. }
      destruct K as [K|K]; [left; exists e; auto|right]. unfold replay_print in K. apply filter_In in K.
      destruct K as (K1 & K2). apply andb_true_iff in K2. exists e. split; [now apply in_rev|]. split; [lia|assumption].
    + intros (e & H1 & H2). exists e. auto.
  - simpl. split; [lia|]. intros E1 _ E2 H. repeat split; simpl.
    + apply ordered_replay; [lia|assumption].
    + intros (e & H1 & H2). left. exists e. auto.
    + intros (e & H1 & H2 & H3). 
      assert (G : forall l, In e l -> In e (replay_up n l)).
      { induction l as [|x l IH]; simpl; [auto|]. intros [<-|K].
        - replace (e_sess x =? n) with false by lia. left. reflexivity.
        - destruct (e_sess x =? n); simpl; auto. }
      exists e. simpl. auto.
Qed.
Lemma end_ok m s s' a : end_session m s = Ok a s' ->
  s' = set_sess (s_sess s - 1) (set_errs (unlead m (s_errs s)) s).
Proof.
  unfold end_session. rewrite !bind_get, !bind_upd. destruct (_ && _); [discriminate|]. intros E. injection E as _ E. symmetry. exact E.
Qed.
Lemma clo_end n m : Clo n m _ (end_session m).
Proof.
  intros Hm s Hs. destruct (end_session m s) as [a s'| | |] eqn:E; try exact I. apply end_ok in E. subst s'. simpl.
  split; [lia|]. intros E1 E2 _ E3 H. repeat split; simpl.
  - replace n with (m - 1) by lia. now apply ordered_unlead.
  - intros (e & H1 & H2). left. exists e. auto.
  - intros (e & H1 & H2 & H3). assert (G : forall l, In e l -> In e (unlead m l)).
    { induction l as [|x l IH]; simpl; [auto|]. intros [<-|K].
      - replace (e_sess x =? m) with false by lia. now left.
      - destruct (e_sess x =? m); simpl; auto. }
    exists e. simpl. auto.
Qed.
Lemma ses_closed C : closed C Ses Clo.
Proof.
  split; intros; auto using ses_ret, ses_bind, ses_replay, clo_end, ses_undef, ses_get, ses_problem, ses_raise,
    ses_get_define, ses_put_define, ses_add_define.
  - intros s Hs. unfold start_session. rewrite bind_assoc, bind_get, bind_assoc, bind_upd, bind_ret.
    specialize (H (s_sess s + 1) ltac:(lia) (set_sess (s_sess s + 1) s)). simpl in H. specialize (H ltac:(lia)).
    destruct (k (s_sess s + 1) _); try exact I. destruct H as (H1 & H2). split; [lia|].
    intros E1 E2 E3 E4. apply H2; try lia. eapply ordered_weak; [|exact E4]. lia.
  - intros Hm s Hs. unfold bind. specialize (H s Hs). destruct (c s) as [a s1| | |]; try exact I.
    destruct H as (H1 & H2). specialize (H0 a Hm s1 ltac:(lia)).
    destruct (k a s1); try exact I. destruct H0 as (H3 & H4). split; [lia|]. intros E1 E2 E3 E4 E5.
    assert (Es : s_sess s1 = m) by lia. specialize (H2 E2 Es ltac:(lia) E5).
    eapply calm_trans; [exact H2|]. apply H4; auto. apply H2.
  - intros Hm s Hs. unfold bind. specialize (H Hm s Hs). destruct (c s) as [a s1| | |]; try exact I.
    destruct H as (H1 & H2). specialize (H0 a s1 ltac:(lia)).
    destruct (k a s1); try exact I. destruct H0 as (H3 & H4). split; [lia|]. intros E1 E2 E3 E4 E5.
    assert (Es : s_sess s1 = n) by lia. specialize (H2 E1 E2 Es E4 E5).
    eapply calm_trans; [exact H2|]. apply H4; auto. apply H2.
  - (* a stale session *)
    intros s Hs. unfold replay_session. rewrite bind_assoc, bind_get.
    assert (G : forall s1, s_sess s1 = s_sess s -> match (end_session m ;;; ret a) s1 with
      | Ok _ s' => s_sess s' = s_sess s - 1 | _ => True end).
    { intros s1 E. unfold bind. destruct (end_session m s1) as [u s2| | |] eqn:Ee; try exact I. apply end_ok in Ee.
      subst s2. simpl. lia. }
    destruct (m =? 1).
    + rewrite bind_assoc, bind_get, bind_upd. specialize (G (set_printed (if c_counter C then s_printed s else
        s_printed s ++ replay_print f (s_errs s)) s) eq_refl). destruct ((end_session m ;;; ret a) _); try exact I.
      split; [lia|]. intros; lia.
    + rewrite bind_upd. specialize (G (set_errs (replay_up m (s_errs s)) s) eq_refl).
      destruct ((end_session m ;;; ret a) _); try exact I. split; [lia|]. intros; lia.
  - intros s _. exact I.
  - intros Hm s _. exact I.
  - apply ses_upd. intros. destruct H; repeat split.
  - apply ses_upd. repeat split.
  - unfold write_out. es.
  - unfold remove_define. es.
  - unfold set_define. pose proof (ses_set_contents n). pose proof (ses_add_define C n). es; auto.
  - unfold add_label. pose proof (ses_search_defines C n). es; auto.
  - unfold set_label_value. es.
  - unfold add_arg_set. es.
  - unfold add_arg. es.
  - unfold remove_arg_set. es.
  - unfold apply_op, int_res. destruct o; es.
Qed.

(** * Only one exit code *)
Definition exits3 (A : Type) (m : M A) : Prop := forall s c s', m s = Exit c s' -> c = 3.
Lemma exits3_bind A B (m : M A) (k : A -> M B) : exits3 A m -> (forall a, exits3 B (k a)) -> exits3 B (bind m k).
Proof.
  intros Hm Hk s c s'. unfold bind. destruct (m s) as [a s1|c1 s1|w|] eqn:E; try discriminate.
  - apply Hk.
  - intros H. injection H as <- _. now apply Hm in E.
Qed.
Ltac x1 :=
  match goal with
  | |- exits3 _ (bind _ _) => apply exits3_bind; [|intros ?]
  | |- exits3 _ (whenM ?b _) => unfold whenM; destruct b
  | |- exits3 _ (match ?x with _ => _ end) => destruct x
  | |- exits3 _ (let '_ := ?x in _) => destruct x
  | |- exits3 _ _ => solve [intros ? ? ?; discriminate]
  end.
Ltac xs := repeat (cbv beta zeta; first [x1 | progress intros]).
Lemma exits3_end n : exits3 _ (end_session n).
Proof.
  intros s c s'. unfold end_session. rewrite !bind_get, !bind_upd. destruct (_ && _); [|discriminate].
  intros E. injection E as <- _. reflexivity.
Qed.
Lemma exits3_replay C n f : exits3 _ (replay_session C n f).
Proof. unfold replay_session. xs. Qed.
Lemma exits3_get_define r : exits3 _ (get_define r).
Proof. intros s c s'. unfold get_define. destruct (lookup_ref s r); discriminate. Qed.
Lemma exits3_put_define r d : exits3 _ (put_define r d).
Proof.
  intros s c s'. unfold put_define. destruct (lookup_ref s r); [|discriminate].
  destruct r as [n|id n]; [discriminate|]. destruct (find_set id (s_args s)); discriminate.
Qed.
Lemma exits3_set_contents r t : exits3 _ (set_contents r t).
Proof. unfold set_contents. pose proof exits3_get_define. pose proof exits3_put_define. xs; auto. Qed.
Lemma exits3_search_defines C n l : exits3 _ (search_defines C n l).
Proof. pose proof exits3_set_contents. unfold search_defines. xs; auto. Qed.
Lemma exits3_add_define C n l : exits3 _ (add_define C n l).
Proof.
  unfold add_define, search_labels. pose proof exits3_search_defines. pose proof exits3_get_define.
  pose proof exits3_put_define. xs; auto.
Qed.
Lemma exits3_closed C : closed C (fun _ => exits3) (fun _ _ => exits3).
Proof.
  split; intros; auto using exits3_bind, exits3_replay, exits3_end, exits3_get_define, exits3_put_define, exits3_add_define;
    try (intros s c s'; discriminate).
  - apply exits3_bind; [unfold start_session; xs|]. intros; apply H.
  - apply exits3_bind; [apply exits3_replay|]. intros. apply exits3_bind; [apply exits3_end|]. xs.
  - unfold write_out. xs.
  - unfold set_define. pose proof exits3_get_define. pose proof exits3_set_contents.
    pose proof exits3_add_define. xs; auto.
  - unfold add_label. pose proof exits3_search_defines. xs; auto.
  - unfold set_label_value. xs.
  - unfold add_arg. xs.
  - unfold remove_arg_set. xs.
  - destruct o; unfold apply_op, int_res; xs.
Qed.

(** * The phases of a run *)
Definition phase (C : cfg) (body : M unit) (f : bool) : M unit :=
  n <- start_session ;; body ;;; replay_session C n f ;;; end_session n.
Lemma phase_then {A} C body f (k : M A) s :
  (n <- start_session ;; body ;;; replay_session C n f ;;; end_session n ;;; k) s = (phase C body f ;;; k) s.
Proof.
  unfold phase. unfold start_session, bind, get, upd, ret. cbv beta iota.
  destruct (body _) as [u s1| | |]; try reflexivity.
  destruct (replay_session C _ f s1) as [u2 s2| | |]; try reflexivity.
Qed.

Lemma start_eq {A} (k : Z -> M A) s : bind start_session k s = k (s_sess s + 1) (set_sess (s_sess s + 1) s).
Proof. reflexivity. Qed.

Lemma unlead_all n l : ordered n l -> 1 <= n -> (forall e, In e l -> e_sess e = n) -> unlead n l = [].
Proof.
  intros _ _ H. induction l as [|e l IH]; [reflexivity|]. simpl. rewrite (H e) by now left. rewrite Z.eqb_refl.
  apply IH. intros; apply H. now right.
Qed.
Lemma ordered_one l : ordered 1 l -> forall e, In e l -> e_sess e = 1.
Proof.
  assert (G : forall l k, k <= 1 -> ordered k l -> forall e, In e l -> e_sess e = 1).
  { clear l. induction l as [|x l IH]; intros k Hk H e K; simpl in *; [contradiction|].
    destruct H as (H1 & H2). destruct K as [<-|K]; [lia|]. eapply (IH (e_sess x)); eauto. lia. }
  apply G. lia.
Qed.
Lemma lead_all n l : (forall e, In e l -> e_sess e = n) -> lead n l = l.
Proof.
  induction l as [|e l IH]; intros H; [reflexivity|]. simpl. rewrite (H e) by now left. rewrite Z.eqb_refl.
  f_equal. apply IH. intros; apply H. now right.
Qed.

Lemma phase_ok C body f s : Ses 1 _ body -> exits3 _ body -> s_sess s <= 0 ->
  match phase C body f s with
  | Ok _ s' => s_sess s' <= s_sess s /\
      (s_sess s' = 0 -> s_errs s = [] -> s_errs s' = [] /\ (bad s' -> bad s))
  | Exit c _ => c = 3
  | _ => True
  end.
Proof.
  intros Hb Hx Hs. unfold phase. rewrite start_eq. set (s0 := set_sess _ s). unfold bind at 1.
  pose proof (Hb s0 ltac:(simpl; lia)) as B. pose proof (Hx s0) as X.
  destruct (body s0) as [u s1|c s1|w|]; try exact I; [|eapply X; reflexivity].
  destruct B as (B1 & B2). simpl in B1, B2.
  set (n := s_sess s + 1) in *.
  pose proof (fun s => exits3_bind _ _ (replay_session C n f) (fun _ => end_session n)
    (exits3_replay C n f) (fun _ => exits3_end n) s) as X2.
  destruct (replay_session C n f s1) as [u2 s2|c2 s2|w|] eqn:Er.
  2:{ unfold bind. rewrite Er. apply exits3_replay in Er. exact Er. }
  2:{ unfold bind. rewrite Er. exact I. }
  2:{ unfold bind. rewrite Er. exact I. }
  rewrite (bind_ok _ _ _ _ _ Er).
  assert (E2 : s_sess s2 = s_sess s1).
  { unfold replay_session in Er. rewrite bind_get in Er. destruct (n =? 1); [rewrite bind_get in Er|]; injection Er as _ <-; reflexivity. }
  destruct (end_session n s2) as [u3 s3|c3 s3|w|] eqn:Ee; try exact I.
  2:{ now apply exits3_end in Ee. }
  pose proof (end_ok _ _ _ _ Ee) as E3.
  assert (E3' : s_sess s3 = s_sess s2 - 1) by (subst s3; reflexivity).
  split; [lia|]. intros Z0 Herrs.
  assert (En : n = 1) by lia. rewrite En in *.
  pose proof (ses_replay C 1 f s1 ltac:(lia)) as R. rewrite Er in R. destruct R as (_ & R).
  specialize (B2 ltac:(lia) ltac:(lia) ltac:(lia)). rewrite Herrs in B2. specialize (B2 I).
  specialize (R ltac:(lia) ltac:(lia) ltac:(lia) (proj1 B2)).
  pose proof (calm_trans _ _ _ _ _ B2 R) as T. destruct T as (T1 & T2 & T3).
  unfold end_session in Ee. rewrite !bind_get, !bind_upd in Ee. cbn [Z.eqb andb] in Ee. change (1 =? 1) with true in Ee. cbn [andb] in Ee.
  rewrite (lead_all 1 (s_errs s2)) in Ee by (apply ordered_one; exact T1).
  destruct (existsb _ (s_errs s2)) eqn:Ex; [discriminate|].
  assert (L : ~ live s2).
  { intros (e & H1 & _ & H2). assert (K : existsb (fun e => is_fatal (e_code e)) (s_errs s2) = true)
      by (apply existsb_exists; exists e; auto). congruence. }
  subst s3. split.
  - cbn [s_errs set_sess set_errs]. apply (unlead_all 1); [exact T1|lia|now apply ordered_one].
  - intros Hbad. assert (Hbad' : bad s2) by exact Hbad. destruct (T2 Hbad') as [K|K]; [exact K|contradiction].
Qed.

Section Run.
Variable C : cfg.
Variable n : nat.
Let R := knot C n.
Lemma ses_first p k : Ses k _ (run_first_pass C R p).
Proof. exact (run_first_pass_P C _ _ (ses_closed C) R (knot_P C _ _ (ses_closed C) n) p k). Qed.
Lemma ses_second k : Ses k _ (run_second_pass C R).
Proof. exact (run_second_pass_P C _ _ (ses_closed C) R (knot_P C _ _ (ses_closed C) n) k). Qed.
Lemma ses_lab t l k : Ses k _ (lab_defines R t l).
Proof. exact (lab_defines_P C _ _ (ses_closed C) R (knot_P C _ _ (ses_closed C) n) t l k). Qed.
Lemma x_first p : exits3 _ (run_first_pass C R p).
Proof. exact (run_first_pass_P C _ _ (exits3_closed C) R (knot_P C _ _ (exits3_closed C) n) p 0). Qed.
Lemma x_second : exits3 _ (run_second_pass C R).
Proof. exact (run_second_pass_P C _ _ (exits3_closed C) R (knot_P C _ _ (exits3_closed C) n) 0). Qed.
Lemma x_lab t l : exits3 _ (lab_defines R t l).
Proof. exact (lab_defines_P C _ _ (exits3_closed C) R (knot_P C _ _ (exits3_closed C) n) t l 0). Qed.
Lemma keeps_first rel p : step_rel rel -> keeps rel _ (run_first_pass C R p).
Proof.
  intros H. exact (run_first_pass_P C _ _ (keeps_closed rel H C) R (knot_P C _ _ (keeps_closed rel H C) n) p 0).
Qed.
Lemma keeps_second rel : step_rel rel -> keeps rel _ (run_second_pass C R).
Proof.
  intros H. exact (run_second_pass_P C _ _ (keeps_closed rel H C) R (knot_P C _ _ (keeps_closed rel H C) n) 0).
Qed.
Lemma keeps_lab rel t l : step_rel rel -> keeps rel _ (lab_defines R t l).
Proof.
  intros H. exact (lab_defines_P C _ _ (keeps_closed rel H C) R (knot_P C _ _ (keeps_closed rel H C) n) t l 0).
Qed.
Lemma ses_write_labels f k : Ses k _ (write_labels R f).
Proof.
  unfold write_labels. apply (cI_session _ _ _ (ses_closed C)). intros m.
  apply (cQ_bind _ _ _ (ses_closed C)); [apply ses_get|intros t].
  apply (cQ_bind _ _ _ (ses_closed C)); [apply ses_get|intros d].
  apply (cQ_bind _ _ _ (ses_closed C)); [apply ses_lab|intros l].
  apply (cQ_after _ _ _ (ses_closed C)); [apply (cQ_end _ _ _ (ses_closed C))|intros _]. es.
Qed.
Lemma x_write_labels f : exits3 _ (write_labels R f).
Proof. unfold write_labels. pose proof x_lab. xs; auto using exits3_end. Qed.
Lemma ses_write_file mem len f k : Ses k _ (write_file C mem len f).
Proof. unfold write_file, makeapp, makeprgm_warnings. es. Qed.
Lemma x_write_file mem len f : exits3 _ (write_file C mem len f).
Proof. unfold write_file, makeapp, makeprgm_warnings. xs. Qed.
End Run.

(** What a part of the run outside every session does: the nesting does not grow; if it is
    unchanged then no problem stays recorded and no fatal problem was printed. *)
Definition Bal (A : Type) (m : M A) : Prop := forall s, s_sess s <= 0 ->
  match m s with
  | Ok _ s' => s_sess s' <= s_sess s /\ (s_sess s' = 0 -> s_errs s = [] -> s_errs s' = [] /\ (bad s' -> bad s))
  | Exit c _ => c = 3
  | _ => True
  end.
Lemma bal_bind A B (m : M A) (k : A -> M B) : Bal A m -> (forall a, Bal B (k a)) -> Bal B (bind m k).
Proof.
  intros Hm Hk s Hs. unfold bind. specialize (Hm s Hs). destruct (m s) as [a s1|c s1|w|]; try exact I; [|exact Hm].
  destruct Hm as (H1 & H2). specialize (Hk a s1 ltac:(lia)). destruct (k a s1) as [b s2|c s2|w|]; try exact I; [|exact Hk].
  destruct Hk as (H3 & H4). split; [lia|]. intros E0 E1. destruct (H2 ltac:(lia) E1) as (H5 & H6).
  destruct (H4 E0 H5) as (H7 & H8). split; [exact H7|]. auto.
Qed.
Lemma bal_quiet A (m : M A) : (forall s, match m s with Ok _ s' => quiet s s' | Exit _ _ => False | _ => True end) -> Bal A m.
Proof.
  intros H s Hs. specialize (H s). destruct (m s); try exact I; [|contradiction]. destruct H as (H1 & H2 & H3).
  split; [lia|]. intros _ E. unfold bad. rewrite H2, H3. auto.
Qed.
Lemma bal_phase C body f : Ses 1 _ body -> exits3 _ body -> Bal _ (phase C body f).
Proof. intros H1 H2 s Hs. now apply phase_ok. Qed.

Section Chain.
Variable C : cfg.
Variable n : nat.
Let R := knot C n.
Variable output : text.
Definition export : M unit :=
  bind (get s_mem) (fun mem => bind (get s_pos) (fun pos => write_file C mem pos output)).
(** The run after the source text was read, as its phases. *)
Definition part12 (t : text) : M unit :=
  phase C (run_first_pass C R t) true ;;; upd (set_incdirs []) ;;;
  whenM (c_symtable C || c_normal C || c_list C) (phase C (run_second_pass C R) false).
Definition part3 : M unit :=
  whenM (c_symtable C) (phase C (write_labels R (change_extension output (zs "lab"))) true).
Definition part4 : M unit := whenM (c_normal C) (phase C export true).
Definition parts (t : text) : M Z :=
  part12 t ;;; part3 ;;; part4 ;;;
  whenM (c_symtable C || c_normal C || c_list C) (upd (set_infiles [])) ;;;
  get s_exitc.
Lemma whenM_true m s : whenM true m s = m s. Proof. reflexivity. Qed.
Lemma part4_eq {A} (k : M A) s :
  (whenM (c_normal C)
     (n <- start_session ;;
      mem <- get s_mem ;; pos <- get s_pos ;;
      write_file C mem pos output ;;;
      replay_session C n true ;;;
      end_session n) ;;; k) s = (part4 ;;; k) s.
Proof. unfold part4, phase, export. destruct (c_normal C); reflexivity. Qed.
Lemma bind_ext {A B} (m : M A) (k k' : A -> M B) s : (forall a s, k a s = k' a s) -> bind m k s = bind m k' s.
Proof. intros H. unfold bind. destruct (m s); auto. Qed.

Lemma run_parts src s : run_assembly C R src output s =
  let s1 := reset_run s in
  match (match src with
         | Some t => Some t
         | None => match c_files C (s_file s1) with Some b => get_file_contents b | None => None end
         end) with
  | None => Ok EXIT_FATAL_ERROR s1
  | Some t => parts (until_nul t) (set_incdirs (c_cwd C :: s_incdirs s1) s1)
  end.
Proof.
  unfold run_assembly. rewrite bind_upd, bind_get. cbv zeta.
  destruct (match src with Some t => _ | None => _ end) as [t|]; [|reflexivity].
  rewrite bind_get, bind_upd. set (s0 := set_incdirs _ _). rewrite phase_then.
  unfold parts, part12. rewrite !bind_assoc. apply bind_ext. clear s0 s. intros _ s. rewrite !bind_assoc.
  apply bind_ext. clear s. intros _ s.
  destruct (c_symtable C || c_normal C || c_list C) eqn:E.
  - cbv beta. unfold whenM at 1. unfold whenM at 3. rewrite <- phase_then. rewrite !bind_assoc.
    apply bind_ext. clear s. intros m s. rewrite !bind_assoc. apply bind_ext. clear s. intros _ s.
    rewrite !bind_assoc. apply bind_ext. clear s. intros _ s. rewrite !bind_assoc. apply bind_ext. clear s. intros _ s.
    rewrite !bind_assoc. apply bind_ext. clear s. intros _ s. rewrite <- part4_eq, !bind_assoc. reflexivity.
  - unfold part3, part4. apply orb_false_iff in E. destruct E as (E & _). apply orb_false_iff in E. destruct E as (-> & ->).
    reflexivity.
Qed.

Lemma ses_export k : Ses k _ export.
Proof. unfold export. es. apply ses_write_file. Qed.
Lemma x_export : exits3 _ export.
Proof. unfold export. xs. apply x_write_file. Qed.
Lemma bal_part12 t : Bal _ (part12 t).
Proof.
  unfold part12. apply bal_bind; [apply bal_phase; [apply ses_first|apply x_first]|intros _].
  apply bal_bind; [apply bal_quiet; repeat split|intros _]. unfold whenM. destruct (_ || _); [|apply bal_quiet; repeat split].
  apply bal_phase; [apply ses_second|apply x_second].
Qed.
Lemma bal_part3 : Bal _ part3.
Proof.
  unfold part3, whenM. destruct (c_symtable C); [|apply bal_quiet; repeat split].
  apply bal_phase; [apply ses_write_labels|apply x_write_labels].
Qed.
Lemma bal_part4 : Bal _ part4.
Proof.
  unfold part4, whenM. destruct (c_normal C); [|apply bal_quiet; repeat split].
  apply bal_phase; [apply ses_export|apply x_export].
Qed.
Lemma bal_parts t : Bal _ (parts t).
Proof.
  unfold parts. apply bal_bind; [apply bal_part12|intros _]. apply bal_bind; [apply bal_part3|intros _].
  apply bal_bind; [apply bal_part4|intros _]. unfold whenM. destruct (_ || _).
  - apply bal_bind; [apply bal_quiet; repeat split|intros _]. apply bal_quiet; repeat split.
  - apply bal_bind; [apply bal_quiet; repeat split|intros _]. apply bal_quiet; repeat split.
Qed.

(** ** Output files *)
Lemma keeps_phase rel body f : step_rel rel -> keeps rel _ body -> keeps rel _ (phase C body f).
Proof.
  intros H Hb. pose proof (keeps_closed rel H C) as K. unfold phase.
  apply (cI_session _ _ _ K 0). intros m. apply (cQ_bind _ _ _ K 0 m); [exact Hb|intros _].
  apply (cQ_bind _ _ _ K 0 m); [apply (cI_replay _ _ _ K m)|intros _]. apply (cQ_end _ _ _ K 0 m).
Qed.
Lemma out_part12 t : keeps same_out _ (part12 t).
Proof.
  unfold part12. apply (keeps_bind _ same_out_rel); [|intros _].
  { apply keeps_phase; [apply same_out_rel|apply keeps_first; apply same_out_rel]. }
  apply (keeps_bind _ same_out_rel); [intros s; reflexivity|intros _].
  unfold whenM. destruct (_ || _); [|intros s; reflexivity].
  apply keeps_phase; [apply same_out_rel|apply keeps_second; apply same_out_rel].
Qed.
Definition adds (name : text) (s s' : st) : Prop := exists b, s_outfiles s' = (name, b) :: s_outfiles s.
Lemma out_write_labels f s : match write_labels R f s with
  | Ok _ s' => adds f s s' | Exit _ s' => same_out s s' | _ => True end.
Proof.
  unfold write_labels. rewrite start_eq. rewrite !bind_get. unfold bind at 1.
  pose proof (keeps_lab C n same_out (s_defines (set_sess (s_sess s + 1) s)) (lab_labels (s_labels (set_sess (s_sess s + 1) s)))
     same_out_rel (set_sess (s_sess s + 1) s)) as K.
  fold R in K. destruct (lab_defines R _ _ _) as [l s1|c s1|w|]; try exact I; [|exact K].
  unfold bind at 1. pose proof (cQ_end _ _ _ (keeps_closed same_out same_out_rel C) 0 (s_sess s + 1) s1) as K2. cbv beta in K2.
  destruct (end_session (s_sess s + 1) s1) as [u s2|c s2|w|]; try exact I.
  - rewrite bind_get. exists (concat (map lab_line l)). simpl. unfold same_out in *. simpl in *. congruence.
  - unfold same_out in *. simpl in *. congruence.
Qed.
Lemma out_phase body f name s : (forall s, match body s with Ok _ s' => adds name s s' | Exit _ s' => same_out s s' | _ => True end) ->
  match phase C body f s with
  | Ok _ s' => adds name s s'
  | Exit _ s' => same_out s s' \/ adds name s s'
  | _ => True end.
Proof.
  intros H. unfold phase. rewrite start_eq. specialize (H (set_sess (s_sess s + 1) s)). unfold bind at 1.
  destruct (body _) as [u s1|c s1|w|]; try exact I; [|left; exact H].
  pose proof (keeps_bind _ same_out_rel _ _ _ (fun _ => end_session (s_sess s + 1))
    (cI_replay _ _ _ (keeps_closed same_out same_out_rel C) (s_sess s + 1) f)
    (fun _ => cQ_end _ _ _ (keeps_closed same_out same_out_rel C) 0 (s_sess s + 1)) s1) as K.
  destruct H as (b & H). simpl in H. destruct (bind _ _ s1) as [u2 s2|c2 s2|w|]; try exact I.
  - exists b. unfold same_out in K. congruence.
  - right. exists b. unfold same_out in K. congruence.
Qed.

(** The exporter: no session, no exit, every problem carries the name of the exporter. *)
Definition estep (A : Type) (m : M A) : Prop := forall s,
  match m s with
  | Ok _ s' => s_outfiles s' = s_outfiles s /\ s_file s' = s_file s /\ s_printed s' = s_printed s /\ s_sess s' = s_sess s /\
      (forall e, In e (s_errs s') -> In e (s_errs s) \/ e_file e = s_file s)
  | Exit _ _ => False
  | _ => True
  end.
Lemma estep_bind A B (m : M A) (k : A -> M B) : estep A m -> (forall a, estep B (k a)) -> estep B (bind m k).
Proof.
  intros Hm Hk s. unfold bind. specialize (Hm s). destruct (m s) as [a s1|c s1|w|]; try exact I; [|exact Hm].
  specialize (Hk a s1). destruct (k a s1) as [b s2|c s2|w|]; try exact I; [|exact Hk].
  destruct Hm as (H1 & H2 & H3 & H4 & H5). destruct Hk as (K1 & K2 & K3 & K4 & K5).
  split; [congruence|]. split; [congruence|]. split; [congruence|]. split; [congruence|].
  intros e He. destruct (K5 e He) as [H|H]; [auto|]. right. congruence.
Qed.
Lemma estep_same A (m : M A) : (forall s, match m s with
    | Ok _ s' => s_outfiles s' = s_outfiles s /\ s_file s' = s_file s /\ s_printed s' = s_printed s /\ s_sess s' = s_sess s /\
        s_errs s' = s_errs s
    | Exit _ _ => False | _ => True end) -> estep A m.
Proof.
  intros H s. specialize (H s). destruct (m s); auto. destruct H as (H1 & H2 & H3 & H4 & H5).
  rewrite H5. repeat split; auto.
Qed.
Lemma estep_problem w c : estep _ (set_problem w c).
Proof.
  intros s. simpl. repeat split. intros e [<-|H]; simpl; auto.
Qed.
Ltac st1 :=
  match goal with
  | |- estep _ (bind _ _) => apply estep_bind; [|intros ?]
  | |- estep _ (whenM ?b _) => unfold whenM; destruct b
  | |- estep _ (match ?x with _ => _ end) => destruct x
  | |- estep _ (let '_ := ?x in _) => destruct x
  | |- estep _ (set_problem _ _) => apply estep_problem
  | |- estep _ _ => solve [apply estep_same; intros ?; simpl; repeat split; exact I]
  end.
Ltac sts := repeat (cbv beta zeta; first [st1 | progress unfold set_error, set_warning, show_warning, raise_exit | progress intros]).

Lemma write_file_ok mem len s : match write_file C mem len output s with
  | Ok _ s' => adds output s s' /\ s_printed s' = s_printed s /\ s_sess s' = s_sess s /\
      (forall e, In e (s_errs s') -> In e (s_errs s) \/ e_file e = zs "exporter")
  | Exit _ _ => False | _ => True end.
Proof.
  unfold write_file. rewrite !bind_upd. set (s0 := set_line _ _).
  assert (F0 : s_file s0 = zs "exporter") by reflexivity.
  assert (O0 : s_outfiles s0 = s_outfiles s) by reflexivity.
  assert (P0 : s_printed s0 = s_printed s) by reflexivity.
  assert (S0 : s_sess s0 = s_sess s) by reflexivity.
  assert (E0 : s_errs s0 = s_errs s) by reflexivity.
  clearbody s0. rename s0 into s1. unfold bind at 1.
  match goal with |- match match ?m with _ => _ end with _ => _ end =>
    assert (K1 : match m with
      | Ok _ s' => s_outfiles s' = s_outfiles s1 /\ s_file s' = s_file s1 /\ s_printed s' = s_printed s1 /\ s_sess s' = s_sess s1 /\
        (forall e, In e (s_errs s') -> In e (s_errs s1) \/ e_file e = s_file s1)
      | Exit _ _ => False
      | _ => True end) end.
  { match goal with |- match ?m s1 with _ => _ end => assert (G : estep _ m) by sts; exact (G s1) end. }
  match goal with |- match match ?m with _ => _ end with _ => _ end => destruct m as [calc s2|c s2|w|] end;
    try exact I; [|exact K1].
  destruct K1 as (H1 & H2 & H3 & H4 & H5). destruct (_ <? len); [exact I|]. cbv zeta. unfold bind at 1.
  match goal with |- match match ?m with _ => _ end with _ => _ end =>
    assert (K2 : match m with
      | Ok _ s' => s_outfiles s' = s_outfiles s2 /\ s_file s' = s_file s2 /\ s_printed s' = s_printed s2 /\ s_sess s' = s_sess s2 /\
        (forall e, In e (s_errs s') -> In e (s_errs s2) \/ e_file e = s_file s2)
      | Exit _ _ => False
      | _ => True end) end.
  { match goal with |- match ?m s2 with _ => _ end =>
      assert (G : estep _ m) by (unfold makeapp, makeprgm_warnings; sts); exact (G s2) end. }
  match goal with |- match match ?m with _ => _ end with _ => _ end => destruct m as [out s3|c s3|w|] end;
    try exact I; [|exact K2].
  destruct K2 as (K1 & K2 & K3 & K4 & K5). rewrite bind_get, bind_upd. simpl.
  split; [exists out; simpl; congruence|]. split; [congruence|]. split; [congruence|].
  intros e He. destruct (K5 e He) as [H|H].
  - destruct (H5 e H) as [H'|H']; [left; congruence|right; congruence].
  - right. congruence.
Qed.

Lemma out_part3 s : match part3 s with
  | Ok _ s' | Exit _ s' => same_out s s' \/ (c_symtable C = true /\ adds (change_extension output (zs "lab")) s s')
  | _ => True end.
Proof.
  unfold part3, whenM. destruct (c_symtable C); [|left; reflexivity].
  pose proof (out_phase (write_labels R (change_extension output (zs "lab"))) true _ s (out_write_labels _)) as H.
  destruct (phase _ _ _ s); tauto.
Qed.
Lemma out_part4 s : c_normal C = true -> match part4 s with Ok _ s' => adds output s s' | _ => True end.
Proof.
  intros E. unfold part4. rewrite E. change (whenM true ?m s) with (m s).
  pose proof (out_phase export true output s) as H.
  assert (K : forall s0, match export s0 with Ok _ s' => adds output s0 s' | Exit _ s' => same_out s0 s' | _ => True end).
  { intros s0. unfold export. rewrite !bind_get. pose proof (write_file_ok (s_mem s0) (s_pos s0) s0) as G.
    destruct (write_file _ _ _ _ _); try exact I; [tauto|contradiction]. }
  specialize (H K). destruct (phase _ _ _ s); auto.
Qed.
(** A fatal problem that stops the export was found by the exporter. *)
Lemma exit_part4 s : s_errs s = [] -> match part4 s with
  | Exit _ s' => s_sess s = 0 /\ forall e, In e (s_printed s') -> In e (s_printed s) \/ e_file e = zs "exporter"
  | _ => True end.
Proof.
  intros E. unfold part4, whenM. destruct (c_normal C); [|exact I]. unfold phase. rewrite start_eq.
  set (s0 := set_sess _ s). unfold export. rewrite bind_assoc, bind_get, bind_assoc, bind_get. unfold bind at 1.
  pose proof (write_file_ok (s_mem s0) (s_pos s0) s0) as G.
  destruct (write_file _ _ _ _ _) as [u s1|c s1|w|]; try exact I; [|contradiction].
  destruct G as (_ & G2 & G3 & G4). unfold bind at 1. unfold replay_session. rewrite bind_get.
  assert (G4' : forall e, In e (s_errs s1) -> e_file e = zs "exporter").
  { intros e He. destruct (G4 e He) as [H|H]; [|exact H]. change (s_errs s0) with (s_errs s) in H. rewrite E in H. contradiction. }
  destruct (s_sess s + 1 =? 1) eqn:E1.
  - rewrite bind_get. simpl. unfold end_session. rewrite !bind_get, !bind_upd. destruct (_ && _); [|exact I].
    simpl. split; [lia|]. intros e He. destruct (c_counter C).
    + left. rewrite G2 in He. exact He.
    + apply in_app_iff in He. destruct He as [He|He].
      * left. rewrite G2 in He. exact He.
      * right. apply filter_In in He. apply G4'. now apply in_rev.
  - simpl. unfold end_session. rewrite !bind_get, !bind_upd, E1. exact I.
Qed.

(** ** The run as a whole *)
Definition labfile : text := change_extension output (zs "lab").
Definition only_labels (l : list (text * list Z)) : Prop :=
  l = [] \/ (c_symtable C = true /\ exists b, l = [(labfile, b)]).

Lemma parts_exit t s c s' : s_sess s = 0 -> s_errs s = [] -> s_outfiles s = [] -> ~ bad s ->
  parts t s = Exit c s' ->
  c = 3 /\ (only_labels (s_outfiles s') \/ (forall e, In e (s_printed s') -> fatal_err e = true -> e_file e = zs "exporter")).
Proof.
  intros Es Ee Eo Hb. unfold parts. unfold bind at 1.
  pose proof (bal_part12 t s ltac:(lia)) as B1. pose proof (out_part12 t s) as O1.
  destruct (part12 t s) as [u s1|c1 s1|w|]; try discriminate.
  2:{ intros E. injection E as <- <-. split; [exact B1|]. left. left. unfold same_out in O1. congruence. }
  unfold same_out in O1. rewrite Eo in O1. destruct B1 as (B1 & B1').
  unfold bind at 1.
  pose proof (bal_part3 s1 ltac:(lia)) as B2. pose proof (out_part3 s1) as O2.
  assert (O2' : match part3 s1 with Ok _ s' | Exit _ s' => only_labels (s_outfiles s') | _ => True end).
  { destruct (part3 s1); try exact I; (destruct O2 as [O2|(O2 & b & O2')]; [left; unfold same_out in O2; congruence|
      right; split; [exact O2|]; exists b; rewrite O2', O1; reflexivity]). }
  destruct (part3 s1) as [u2 s2|c2 s2|w|]; try discriminate.
  2:{ intros E. injection E as <- <-. split; [exact B2|]. left. exact O2'. }
  destruct B2 as (B2 & B2'). unfold bind at 1.
  pose proof (bal_part4 s2 ltac:(lia)) as B3. pose proof (exit_part4 s2) as X.
  destruct (part4 s2) as [u3 s3|c3 s3|w|] eqn:E4; try discriminate.
  1:{ unfold whenM. destruct (_ || _); discriminate. }
  intros E. injection E as <- <-. split; [exact B3|].
  assert (S2 : s_sess s2 = 0).
  { unfold part4 in E4. unfold whenM in E4. destruct (c_normal C); [|discriminate]. unfold phase in E4. rewrite start_eq in E4.
    unfold export in E4. rewrite bind_assoc, bind_get, bind_assoc, bind_get in E4.
    set (s0 := set_sess _ s2) in E4. pose proof (write_file_ok (s_mem s0) (s_pos s0) s0) as G. unfold bind at 1 in E4.
    destruct (write_file _ _ _ _ _) as [u4 s4|c4 s4|w|]; try discriminate; [|contradiction].
    destruct (Z.eq_dec (s_sess s2) 0) as [Z0|Z0]; [exact Z0|exfalso].
    unfold replay_session in E4. rewrite bind_assoc, bind_get in E4.
    replace (s_sess s2 + 1 =? 1) with false in E4 by lia. rewrite bind_upd in E4.
    unfold end_session in E4. rewrite !bind_get, !bind_upd in E4. replace (s_sess s2 + 1 =? 1) with false in E4 by lia.
    discriminate. }
  destruct (B2' S2) as (F1 & F2); [apply B1'; [lia|exact Ee]|].
  destruct (B1' ltac:(lia) Ee) as (F3 & F4).
  destruct (X F1) as (_ & X'). right. intros e He Hf. destruct (X' e He) as [K|K]; [|exact K].
  exfalso. apply Hb, F4, F2. exists e. auto.
Qed.
Lemma parts_ok t s c s' : s_sess s = 0 -> s_errs s = [] -> s_outfiles s = [] -> ~ bad s -> 0 <= s_exitc s <= 3 ->
  parts t s = Ok c s' ->
  c = s_exitc s' /\
  (s_sess s' = 0 -> ~ bad s') /\
  (c_normal C = true -> exists b l, s_outfiles s' = (output, b) :: l /\ only_labels l) /\
  (c_normal C = false -> only_labels (s_outfiles s')).
Proof.
  intros Es Ee Eo Hb Hx E.
  pose proof (bal_parts t s ltac:(lia)) as B. rewrite E in B. destruct B as (_ & B).
  split; [|split; [intros H Hb'; apply Hb; now apply B|]].
  - revert E. unfold parts, bind. destruct (part12 t s); try discriminate. destruct (part3 _); try discriminate.
    destruct (part4 _); try discriminate. unfold whenM. destruct (_ || _); simpl; intros E; injection E as <- <-; reflexivity.
  - revert E. unfold parts. unfold bind at 1. pose proof (out_part12 t s) as O1.
    destruct (part12 t s) as [u s1|c1 s1|w|]; try discriminate. unfold same_out in O1. rewrite Eo in O1.
    unfold bind at 1. pose proof (out_part3 s1) as O2.
    assert (O2' : match part3 s1 with Ok _ s' | Exit _ s' => only_labels (s_outfiles s') | _ => True end).
    { destruct (part3 s1); try exact I; (destruct O2 as [O2|(O2 & b & O2')]; [left; unfold same_out in O2; congruence|
        right; split; [exact O2|]; exists b; rewrite O2', O1; reflexivity]). }
    destruct (part3 s1) as [u2 s2|c2 s2|w|]; try discriminate.
    unfold bind at 1. pose proof (out_part4 s2) as O3.
    destruct (part4 s2) as [u3 s3|c3 s3|w|] eqn:E4; try discriminate.
    intros E. assert (F : s_outfiles s' = s_outfiles s3).
    { unfold whenM in E. destruct (_ || _); simpl in E; injection E as _ <-; reflexivity. }
    split; intros N.
    + destruct (O3 N) as (b & O3'). exists b, (s_outfiles s2). split; [congruence|exact O2'].
    + unfold part4 in E4. rewrite N in E4. simpl in E4. injection E4 as _ <-. rewrite F. exact O2'.
Qed.
End Chain.

(** * The exit status stays within 0..3 *)
Section Status.
Variable C : cfg.
Variable n : nat.
Let R := knot C n.
Lemma grows_any A (m : M A) : (forall s, match m s with Ok _ s' | Exit _ s' => s_exitc s' = s_exitc s | _ => True end) -> keeps grows A m.
Proof. intros H s. specialize (H s). destruct (m s); try exact I; unfold grows; lia. Qed.
Lemma grows_export output : keeps grows _ (export C output).
Proof.
  pose proof grows_rel as HR. unfold export, write_file, makeapp, makeprgm_warnings.
  repeat (cbv beta zeta; first [progress unfold set_error, set_warning, show_warning | match goal with
    | |- keeps _ _ (bind _ _) => apply (keeps_bind _ HR); [|intros ?]
    | |- keeps _ _ (whenM ?b _) => unfold whenM; destruct b
    | |- keeps _ _ (raise_exit _) => apply (keeps_raise _ HR); vm_compute; split; discriminate
    | |- keeps _ _ (match ?x with _ => _ end) => destruct x
    | |- keeps _ _ (let '_ := ?x in _) => destruct x
    | |- keeps _ _ _ => solve [apply grows_any; intros ?; simpl; first [exact I|reflexivity]]
    end]).
Qed.
Lemma grows_labels f : keeps grows _ (write_labels R f).
Proof.
  pose proof grows_rel as HR. pose proof (keeps_closed grows HR C) as K. unfold write_labels.
  apply (cI_session _ _ _ K 0). intros m. apply (cQ_bind _ _ _ K 0 m); [apply (keeps_get _ HR)|intros t].
  apply (cQ_bind _ _ _ K 0 m); [apply (keeps_get _ HR)|intros d].
  apply (cQ_bind _ _ _ K 0 m); [apply keeps_lab; exact HR|intros l].
  apply (keeps_bind _ HR); [apply (cQ_end _ _ _ K 0 m)|intros _].
  apply (keeps_bind _ HR); [apply (keeps_get _ HR)|intros o]. apply grows_any. reflexivity.
Qed.
Lemma grows_parts output t : keeps grows _ (parts C n output t).
Proof.
  pose proof grows_rel as HR. unfold parts, part12, part3, part4.
  pose proof (keeps_phase C grows). pose proof (fun p => keeps_first C n grows p HR). pose proof (keeps_second C n grows HR).
  pose proof grows_labels. pose proof grows_export.
  repeat (cbv beta zeta; match goal with
    | |- keeps _ _ (bind _ _) => apply (keeps_bind _ HR); [|intros ?]
    | |- keeps _ _ (whenM ?b _) => unfold whenM; destruct b
    | |- keeps _ _ (phase _ _ _) => apply keeps_phase; [exact HR|auto]
    | |- keeps _ _ _ => solve [apply grows_any; intros ?; simpl; first [exact I|reflexivity]]
    end).
Qed.
End Status.

(** * From the program to its parts *)
Lemma main_parts fuel w argv c files s : main fuel w argv = Done c files (Some s) ->
  exists a input, read_args w args0 argv = AGo a /\ a_input a = Some input /\
  let C := mkconf w a in
  let output := match a_output a with Some o => o | None => change_extension input (zs "bin") end in
  files = rev (s_outfiles s) /\
  ((c = EXIT_FATAL_ERROR /\ s_outfiles s = [] /\ s_printed s = []) \/
   exists t s0, s_sess s0 = 0 /\ s_errs s0 = [] /\ s_outfiles s0 = [] /\ s_printed s0 = [] /\ s_exitc s0 = 0 /\
     (parts C fuel output t s0 = Ok c s \/ parts C fuel output t s0 = Exit c s)).
Proof.
  unfold main. destruct argv as [|x argv]; [discriminate|]. destruct (read_args w args0 (x :: argv)) as [a| |]; try discriminate.
  destruct (a_input a) as [input|] eqn:Ei; [|discriminate]. intros H. exists a, input. split; [reflexivity|]. split; [exact Ei|].
  cbv zeta in *. revert H. set (output := match a_output a with Some o => o | None => _ end).
  set (defs := match a_defs a with Some d => d | None => _ end).
  rewrite run_parts. cbv zeta.
  set (s1 := reset_run (init_state (a_ez80 a) input (a_dirs a) defs)).
  destruct (match a_line a with Some t => _ | None => _ end) as [t|].
  - set (s0 := set_incdirs _ s1). intros H.
    destruct (parts (mkconf w a) fuel output (until_nul t) s0) as [c' s'|c' s'| |] eqn:E; try discriminate;
      injection H as <- <- <-; (split; [reflexivity|]); right; exists (until_nul t), s0; repeat split; auto.
  - intros H. injection H as <- <- <-. split; [reflexivity|]. left. repeat split.
Qed.
