(** What every run of the assembler keeps about the label table and the output buffer. *)
From Coq Require Import Sorting.Sorted Permutation.
From Verif Require Import Base BaseProofs State UtilsModel ErrorsModel StorageModel ParserModel PassTwoModel
  PreopModel PassOneModel DirectiveModel Knot ExportModel MainModel MonadProofs Whole StorageProofs SessionProofs.

Definition byte (c : Z) : Prop := 0 <= c <= 255.

Section Inv.
Variable C : cfg.

(** The label table is in order without repetitions, each label is stored under its own name,
    and names are upper-case unless case matters; the output buffer holds bytes. *)
Definition named (e : text * label) : Prop :=
  l_name (snd e) = fst e /\ (c_case C = false -> strup (fst e) = fst e).
Definition inv (s : st) : Prop :=
  table_ok (s_labels s) /\ Forall named (s_labels s) /\ Forall byte (s_mem s).
(** Labels are not removed. *)
Definition stays (s s' : st) : Prop :=
  forall k, tfind k (s_labels s) <> None -> tfind k (s_labels s') <> None.
Definition rel (s s' : st) : Prop := inv s -> inv s' /\ stays s s'.

Lemma rel_same s s' : s_labels s' = s_labels s -> s_mem s' = s_mem s -> rel s s'.
Proof. intros H1 H2 H. unfold inv, stays. rewrite H1, H2. split; [exact H|auto]. Qed.
Lemma rel_refl s : rel s s.
Proof. now apply rel_same. Qed.
Lemma rel_trans a b c : rel a b -> rel b c -> rel a c.
Proof.
  intros H1 H2 H. destruct (H1 H) as (H3 & H4). destruct (H2 H3) as (H5 & H6). split; [exact H5|].
  intros k Hk. apply H6, H4, Hk.
Qed.
Lemma plain_labels f s : plain f -> s_labels (f s) = s_labels s /\ s_mem (f s) = s_mem s.
Proof. intros H. destruct H; split; reflexivity. Qed.
Lemma put_at_bytes i v l : byte v -> Forall byte l -> Forall byte (put_at i v l).
Proof.
  intros Hv. revert l. induction i as [|i IH]; intros [|x l] H; simpl.
  - constructor; [exact Hv|constructor].
  - inversion H; subst. constructor; assumption.
  - constructor; [unfold byte; lia|]. apply IH. constructor.
  - inversion H; subst. constructor; [assumption|]. now apply IH.
Qed.
Lemma strup_idem t : strup (strup t) = strup t.
Proof. unfold strup. rewrite map_map. apply map_ext. intros c. apply fold_case_idem. Qed.
Lemma named_key name ln f v : named (key C name, mklabel (key C name) ln f v).
Proof.
  split; [reflexivity|]. intros H. unfold key. simpl. rewrite H. apply strup_idem.
Qed.
Lemma tfind_in {A} k (t : list (text * A)) v : tfind k t = Some v -> In (k, v) t.
Proof.
  induction t as [|[k' v'] t IH]; simpl; [discriminate|]. destruct (eqbl k k') eqn:E; [|auto].
  intros H. injection H as <-. apply eqbl_eq in E. subst. now left.
Qed.
Lemma tset_forall {A} (P : text * A -> Prop) k v t : P (k, v) -> Forall P t -> Forall P (tset k v t).
Proof.
  intros Hv H. induction H as [|[k' v'] t H1 H IH]; simpl; [repeat constructor; assumption|].
  destruct (eqbl k k') eqn:E.
  - apply eqbl_eq in E. subst. constructor; assumption.
  - destruct (text_ltb k k'); repeat constructor; assumption.
Qed.
Lemma rel_set k l s : named (k, l) -> rel s (set_labels (tset k l (s_labels s)) s).
Proof.
  intros Hn (H1 & H2 & H3). unfold inv, stays. simpl. split; [split; [|split]|].
  - now apply tset_ok.
  - now apply tset_forall.
  - exact H3.
  - intros k' H. rewrite tfind_tset. destruct (eqbl k' k); [discriminate|exact H].
Qed.
Lemma rel_value k l ln f v s : tfind k (s_labels s) = Some l ->
  rel s (set_labels (tset k (mklabel (l_name l) ln f v) (s_labels s)) s).
Proof.
  intros E H. apply rel_set; [|exact H]. destruct H as (_ & H & _). rewrite Forall_forall in H.
  apply (H _ (tfind_in _ _ _ E)).
Qed.

Notation K := (keeps rel).
Lemma K_bind A B (m : M A) (k : A -> M B) : K A m -> (forall a, K B (k a)) -> K B (bind m k).
Proof.
  intros Hm Hk s. unfold bind. specialize (Hm s). destruct (m s) as [a s1|c s1|w|]; try exact Hm; try exact I.
  specialize (Hk a s1). destruct (k a s1); try exact I; eapply rel_trans; eauto.
Qed.
Lemma K_ret A (a : A) : K A (ret a).
Proof. intros s. apply rel_refl. Qed.
Lemma K_get A (f : st -> A) : K A (get f).
Proof. intros s. apply rel_refl. Qed.
Lemma K_undef A w : K A (undef w).
Proof. intros s. exact Logic.I. Qed.
Lemma K_upd f : (forall s, s_labels (f s) = s_labels s) -> (forall s, s_mem (f s) = s_mem s) -> K unit (upd f).
Proof. intros H1 H2 s. now apply rel_same. Qed.
Lemma K_problem w c : K _ (set_problem w c).
Proof. intros s. now apply rel_same. Qed.
Lemma K_raise n : K _ (raise_exit n).
Proof. intros s. now apply rel_same. Qed.
Lemma K_get_define r : K _ (get_define r).
Proof. intros s. unfold get_define. destruct (lookup_ref s r); [apply rel_refl|exact Logic.I]. Qed.
Lemma K_put_define r d : K _ (put_define r d).
Proof.
  intros s. unfold put_define. destruct (lookup_ref s r); [|exact Logic.I].
  destruct r as [n|id n]; [now apply rel_same|]. destruct (find_set id (s_args s)); [now apply rel_same|exact Logic.I].
Qed.
Ltac k1 :=
  match goal with
  | |- K _ (bind _ _) => apply K_bind; [|intros ?]
  | |- K _ (ret _) => apply K_ret
  | |- K _ (get _) => apply K_get
  | |- K _ (undef _) => apply K_undef
  | |- K _ (set_problem _ _) => apply K_problem
  | |- K _ (get_define _) => apply K_get_define
  | |- K _ (put_define _ _) => apply K_put_define
  | |- K _ (raise_exit _) => apply K_raise
  | |- K _ (upd _) => apply K_upd; intros; reflexivity
  | |- K _ (whenM ?b _) => unfold whenM; destruct b
  | |- K _ (match ?x with _ => _ end) => destruct x
  | |- K _ (let '_ := ?x in _) => destruct x
  end.
Ltac ks := repeat (cbv beta zeta; first [k1 | progress unfold set_error, set_warning, show_error, show_warning | progress intros]).
Lemma K_start : K _ start_session.
Proof. unfold start_session. ks. Qed.
Lemma K_replay D n f : K _ (replay_session D n f).
Proof. unfold replay_session. ks. Qed.
Lemma K_end n : K _ (end_session n).
Proof. unfold end_session. ks. intros s. apply rel_refl. Qed.
Lemma K_set_contents r t : K _ (set_contents r t).
Proof. unfold set_contents. ks. Qed.
Lemma K_search_defines n l : K _ (search_defines C n l).
Proof. pose proof K_set_contents. unfold search_defines. ks; auto. Qed.
Lemma K_add_define n l : K _ (add_define C n l).
Proof. unfold add_define, search_labels. pose proof K_search_defines. ks; auto. Qed.
Lemma K_add_label name v : K _ (add_label C name v).
Proof.
  unfold add_label. destruct (c_counter C); [apply K_ret|]. cbv zeta. apply K_bind; [apply K_search_defines|].
  intros [r|]; [ks|]. intros s. rewrite bind_get. destruct (tfind (key C name) (s_labels s)) as [l|] eqn:E.
  - match goal with |- match ?c s with _ => _ end => enough (G : match c s with Ok _ s' | Exit _ s' => rel s s' | _ => True end) by exact G end.
    destruct (v =? l_value l).
    + rewrite bind_ret. apply rel_refl.
    + unfold show_warning. rewrite !bind_assoc, bind_upd.
      set (s1 := set_labels _ s). assert (R : rel s s1) by (now apply rel_value).
      match goal with |- match ?c s1 with _ => _ end => assert (G : K _ c) by ks; specialize (G s1); destruct (c s1) end;
        try exact Logic.I; eapply rel_trans; eauto.
  - rewrite bind_get, bind_get, bind_upd. simpl. apply rel_set, named_key.
Qed.
Lemma K_label_value k v : K _ (set_label_value k v).
Proof.
  unfold set_label_value. intros s. rewrite bind_get. destruct (tfind k (s_labels s)) eqn:E; [|exact Logic.I].
  simpl. now apply rel_value.
Qed.
Lemma inv_closed : closed C (fun _ => K) (fun _ _ => K).
Proof.
  split; intros; auto using K_bind, K_ret, K_get, K_undef, K_problem, K_raise,
    K_start, K_replay, K_end, K_get_define, K_put_define, K_add_define, K_add_label, K_label_value.
  all: try (intros s; exact Logic.I).
  all: try solve [unfold remove_define; ks|unfold add_arg_set; ks|unfold add_arg; ks|unfold remove_arg_set; ks|
    apply K_upd; reflexivity|unfold apply_op, int_res; destruct o; ks].
  - intros s. apply rel_same; now apply plain_labels.
  - intros s. unfold write_out. rewrite bind_get. destruct ((0 <=? s_pos s) && (s_pos s <? OUTPUT_BUF_SIZE)); [|exact Logic.I].
    rewrite bind_get, bind_upd. cbn. intros (H1 & H2 & H3). split; [|intros k Hk; exact Hk].
    split; [exact H1|split; [exact H2|]]. apply put_at_bytes; [unfold byte, u8; lia|exact H3].
  - unfold set_define. pose proof K_set_contents. pose proof K_add_define. ks; auto.
Qed.

Section Run.
Variable n : nat.
Let R := knot C n.
Let RP := knot_P C _ _ inv_closed n.
Lemma K_first p : K _ (run_first_pass C R p).
Proof. exact (run_first_pass_P C _ _ inv_closed R RP p 0). Qed.
Lemma K_second : K _ (run_second_pass C R).
Proof. exact (run_second_pass_P C _ _ inv_closed R RP 0). Qed.
Lemma K_lab t l : K _ (lab_defines R t l).
Proof. exact (lab_defines_P C _ _ inv_closed R RP t l 0). Qed.
Lemma K_write_labels f : K _ (write_labels R f).
Proof. unfold write_labels. pose proof K_lab. ks; auto using K_start, K_end. Qed.
Lemma K_write_file mem len f : K _ (write_file C mem len f).
Proof. unfold write_file, makeapp, makeprgm_warnings. ks. Qed.
Lemma K_phase body f : K _ body -> K _ (phase C body f).
Proof. intros H. unfold phase. ks; auto using K_start, K_replay, K_end. Qed.
Lemma K_part12 t : K _ (part12 C n t).
Proof. unfold part12. ks; apply K_phase; [apply K_first|apply K_second]. Qed.
Lemma K_part3 output : K _ (part3 C n output).
Proof. unfold part3. ks. apply K_phase, K_write_labels. Qed.
Lemma K_part4 output : K _ (part4 C output).
Proof. unfold part4, export. ks. apply K_phase. ks. apply K_write_file. Qed.
Lemma K_parts output t : K _ (parts C n output t).
Proof. unfold parts. ks; auto using K_part12, K_part3, K_part4. Qed.
End Run.
End Inv.

(** * From the program to its parts *)
Lemma main_start fuel w argv c files s : main fuel w argv = Done c files (Some s) ->
  exists a input, read_args w args0 argv = AGo a /\ a_input a = Some input /\
  let C := mkconf w a in
  let output := match a_output a with Some o => o | None => change_extension input (zs "bin") end in
  files = rev (s_outfiles s) /\
  ((c = EXIT_FATAL_ERROR /\ s_outfiles s = [] /\ s_labels s = [] /\ s_mem s = []) \/
   exists t s0, s_sess s0 = 0 /\ s_errs s0 = [] /\ s_outfiles s0 = [] /\ s_printed s0 = [] /\ s_exitc s0 = 0 /\
     s_labels s0 = [] /\ s_mem s0 = [] /\
     (parts C fuel output t s0 = Ok c s \/ parts C fuel output t s0 = Exit c s)).
Proof.
  unfold main. destruct argv as [|x argv]; [discriminate|]. destruct (read_args w args0 (x :: argv)) as [a| |]; try discriminate.
  destruct (a_input a) as [input|] eqn:Ei; [|discriminate]. intros H. exists a, input. split; [reflexivity|]. split; [exact Ei|].
  cbv zeta in *. revert H. set (output := match a_output a with Some o => o | None => _ end).
  set (defs := match a_defs a with Some d => d | None => _ end).
  rewrite run_parts. cbv zeta.
  set (s1 := reset_run (init_state (a_ez80 a) input (a_dirs a) defs)).
  destruct (match a_line a with Some t => _ | None => _ end) as [t|].
  - set (s0 := set_incdirs _ s1). intros H.
    destruct (parts (mkconf w a) fuel output (until_nul t) s0) as [c' s'|c' s'| |] eqn:E; try discriminate;
      injection H as <- <- <-; (split; [reflexivity|]); right; exists (until_nul t), s0; repeat split; auto.
  - intros H. injection H as <- <- <-. split; [reflexivity|]. left. repeat split.
Qed.
