(** What evaluation and console output leave alone whatever the error sessions do: the program
    data, the labels, the queues.  For texts and defines without '#'. *)
From Verif Require Import Base BaseProofs State UtilsModel ErrorsModel StorageModel ParserModel PassTwoModel
  PreopModel PassOneModel DirectiveModel Knot MonadProofs UtilsSpec UtilsProofs StorageSpec StorageProofs ParserSpec ParserProofs
  EvalSpec EvalProofs SecondSpec.

(** Everything else. *)
Definition mcore (s : st) : st :=
  set_line 0 (set_sess 0 (set_printed [] (set_emitlev 0 (core s)))).
Definition mstep (s s' : st) : Prop := mcore s' = mcore s /\ minv s'.
Definition MV {A} (Q : A -> Prop) (m : M A) : Prop := forall s, minv s ->
  match m s with
  | Ok a s' => mstep s s' /\ Q a
  | Exit _ s' => mstep s s'
  | _ => True
  end.
Lemma MV_bind {A B} (Q1 : A -> Prop) (Q2 : B -> Prop) m k :
  MV Q1 m -> (forall a, Q1 a -> MV Q2 (k a)) -> MV Q2 (bind m k).
Proof.
  intros Hm Hk s Hs. unfold bind. specialize (Hm s Hs). destruct (m s) as [a s1|c s1|w|]; auto.
  destruct Hm as ((H1 & H2) & H3). specialize (Hk a H3 s1 H2). destruct (k a s1) as [b s2|c s2|w|]; auto.
  - destruct Hk as ((K1 & K2) & K3). split; [|exact K3]. split; [congruence|exact K2].
  - destruct Hk as (K1 & K2). split; [congruence|exact K2].
Qed.
Lemma MV_weak {A} (Q1 Q2 : A -> Prop) m : MV Q1 m -> (forall a, Q1 a -> Q2 a) -> MV Q2 m.
Proof. intros H HQ s Hs. specialize (H s Hs). destruct (m s); auto. destruct H; auto. Qed.
Lemma MV_any {A} (Q : A -> Prop) m : MV Q m -> MV any m.
Proof. intros H. eapply MV_weak; [exact H|intros; exact I]. Qed.
Lemma MV_ret {A} (Q : A -> Prop) (a : A) : Q a -> MV Q (ret a).
Proof. intros Hq s Hs. split; [split; [reflexivity|exact Hs]|exact Hq]. Qed.
Lemma MV_get {A} (f : st -> A) : MV any (get f).
Proof. intros s Hs. split; [split; [reflexivity|exact Hs]|exact I]. Qed.
Lemma MV_get_file : MV clean (get s_file).
Proof. intros s Hs. split; [split; [reflexivity|exact Hs]|apply Hs]. Qed.
Lemma MV_undef {A} (Q : A -> Prop) w : MV Q (undef w).
Proof. intros s Hs. exact I. Qed.
Lemma MV_nofuel {A} (Q : A -> Prop) : MV Q nofuel.
Proof. intros s Hs. exact I. Qed.
Lemma MV_upd f : (forall s, mcore (f s) = mcore s /\ s_defines (f s) = s_defines s /\ s_args (f s) = s_args s) -> MV any (upd f).
Proof.
  intros H s Hs. destruct (H s) as (H1 & H2 & H3). split; [|exact I]. split; [exact H1|].
  destruct Hs. split; rewrite ?H2, ?H3; auto. now rewrite (f_equal s_file H1 : s_file (f s) = s_file s).
Qed.
Ltac mup := apply MV_upd; intros; split; [reflexivity|split; reflexivity].
Lemma MV_problem w c : MV any (set_problem w c).
Proof. unfold set_problem. repeat (eapply MV_bind; [apply MV_get|intros ? _]). mup. Qed.
Lemma MV_raise n : MV any (raise_exit n).
Proof. unfold raise_exit. eapply MV_bind; [apply MV_get|intros ? _]. mup. Qed.
Lemma MV_fatal : MV any show_fatal_error.
Proof. unfold show_fatal_error. eapply MV_bind; [apply MV_raise|intros ? _]. mup. Qed.
Lemma MV_start : MV any start_session.
Proof. unfold start_session. eapply MV_bind; [apply MV_get|intros ? _]. eapply MV_bind; [mup|intros ? _]. now apply MV_ret. Qed.
Lemma MV_replay C n f : MV any (replay_session C n f).
Proof.
  unfold replay_session. eapply MV_bind; [apply MV_get|intros ? _]. destruct (n =? 1); [|mup].
  eapply MV_bind; [apply MV_get|intros ? _]. mup.
Qed.
Lemma MV_end n : MV any (end_session n).
Proof.
  unfold end_session. repeat (eapply MV_bind; [apply MV_get|intros ? _]). repeat (eapply MV_bind; [mup|intros ? _]).
  destruct (_ && _); [|now apply MV_ret]. intros s Hs. split; [reflexivity|exact Hs].
Qed.
Lemma MV_get_define r : MV (fun d => oclean (d_contents d)) (get_define r).
Proof.
  intros s Hs. unfold get_define. destruct (lookup_ref s r) as [d|] eqn:E; [|exact I].
  split; [split; [reflexivity|exact Hs]|]. destruct r as [n|id n]; simpl in E.
  - eapply tok_find; [apply Hs|exact E].
  - destruct (find_set id (s_args s)) eqn:E2; [|discriminate]. eapply tok_find; [|exact E]. eapply atok_find; [apply Hs|exact E2].
Qed.
Lemma MV_set_contents r t : clean t -> MV any (set_contents r t).
Proof.
  intros Ht s Hs. unfold set_contents, bind, get_define. destruct (lookup_ref s r) as [d|] eqn:E; [|exact I].
  unfold put_define. rewrite E. destruct r as [n|id n]; simpl in E.
  - split; [|exact I]. split; [reflexivity|]. destruct Hs. split; simpl; auto. now apply tok_set.
  - destruct (find_set id (s_args s)) as [u|] eqn:E2; [|discriminate]. split; [|exact I]. split; [reflexivity|].
    destruct Hs. split; simpl; auto. apply atok_put; [assumption|]. apply tok_set; auto. eapply atok_find; eauto.
Qed.
Lemma MV_search_defines C name local : MV any (search_defines C name local).
Proof.
  unfold search_defines. eapply MV_bind; [apply MV_get|intros ? _]. eapply MV_bind; [apply MV_get|intros ? _].
  cbv zeta. set (r := match _ with Some r => Some r | None => _ end). clearbody r.
  eapply MV_bind with (Q1 := any); [|intros ? _; now apply MV_ret].
  destruct (eqbl _ _); [|destruct (eqbl _ _); [|now apply MV_ret]].
  - eapply MV_bind; [apply MV_get|intros ln _]. destruct r; [apply MV_set_contents, clean_dec|now apply MV_ret].
  - eapply MV_bind; [apply MV_get_file|intros f Hf]. destruct r; [apply MV_set_contents, clean_quote, Hf|now apply MV_ret].
Qed.
Lemma MV_add_set : MV any add_arg_set.
Proof.
  intros s Hs. unfold add_arg_set. rewrite !bind_get, !bind_upd. simpl. split; [|exact I]. split; [reflexivity|].
  destruct Hs. split; simpl; auto. constructor; [|assumption]. split; constructor.
Qed.
Lemma MV_add_arg C name v id : oclean v -> MV any (add_arg C name v id).
Proof.
  intros Hv s Hs. unfold add_arg. cbv zeta. rewrite !bind_get. destruct (find_set id (s_args s)) as [t|] eqn:E; [|exact I].
  split; [|exact I]. split; [reflexivity|]. destruct Hs. split; simpl; auto. apply atok_put; [assumption|].
  apply tok_set; [eapply atok_find; eauto|assumption].
Qed.
Lemma atok_del id a : atok a -> atok (del_set id a).
Proof.
  induction 1 as [|[i t] a H1 H2 IH]; simpl; [constructor|]. destruct (Nat.eqb i id); [assumption|]. constructor; assumption.
Qed.
Lemma MV_remove o : MV any (remove_arg_set o).
Proof.
  destruct o as [id|]; [|now apply MV_ret]. intros s Hs. unfold remove_arg_set. rewrite bind_get.
  destruct (find_set id (s_args s)); [|exact I]. split; [|exact I]. split; [reflexivity|]. destruct Hs. split; simpl; auto.
  now apply atok_del.
Qed.
#[export] Hint Resolve MV_problem MV_raise MV_fatal MV_start MV_replay MV_end MV_get_define MV_search_defines MV_add_set
  MV_add_arg MV_remove MV_undef MV_nofuel MV_set_contents : mv.
Lemma MV_set_error c : MV any (set_error c). Proof. apply MV_problem. Qed.
Lemma MV_set_warning c : MV any (set_warning c). Proof. apply MV_problem. Qed.
Lemma MV_show_error : MV any show_error. Proof. apply MV_raise. Qed.
Lemma MV_show_warning : MV any show_warning. Proof. apply MV_raise. Qed.
Lemma MV_get_define_any r : MV any (get_define r). Proof. eapply MV_any, MV_get_define. Qed.
#[export] Hint Resolve MV_get_define_any MV_set_error MV_set_warning MV_show_error MV_show_warning : mv.

(** A computation that only reads and updates the fields left open. *)
Ltac mif := match goal with
  | |- MV _ (whenM ?b _) => unfold whenM; destruct b
  | |- MV _ (if ?b then _ else _) => destruct b
  | |- MV _ (match ?o with None => _ | Some _ => _ end) => destruct o
  | |- MV _ (match ?o with Some _ => _ | None => _ end) => destruct o
  | |- MV _ (let '(_, _) := ?o in _) => destruct o
  end.
Ltac mb := eapply MV_bind with (Q1 := any); [|intros ? _].
Ltac mvs := repeat (cbv beta zeta; first
  [ solve [eauto with mv] | mup | apply MV_get | (apply MV_ret; first [exact I|assumption|idtac])
  | mif | mb ]).

Lemma MV_read_expr' buf p d : clean p -> MV (fun r => clean (rx_ptr r) /\ clean (rx_word r)) (read_expr' buf p d).
Proof. intros H. unfold read_expr'. mvs. now apply clean_read_gen. Qed.
Lemma MV_read_expr p d : clean p -> MV (fun r => clean (rx_ptr r) /\ clean (rx_word r)) (read_expr p d).
Proof. apply MV_read_expr'. Qed.
Lemma MV_conv base code s e : MV any (conv_generic base code s e).
Proof. unfold conv_generic. destruct (strtoll base s) as [v ep]. mvs. Qed.
Lemma MV_search_labels C n : MV any (search_labels C n). Proof. unfold search_labels. mvs. Qed.
Lemma MV_search_local C n : MV any (search_local_defines C n). Proof. unfold search_local_defines. mvs. Qed.
Lemma MV_get_reusable : MV any get_curr_reusable. Proof. unfold get_curr_reusable. mvs. Qed.
Lemma MV_search_reusables i : MV any (search_reusables i). Proof. unfold search_reusables. mvs. Qed.
Lemma MV_char_escape C c : MV any (char_escape C c). Proof. unfold char_escape, next_rand. mvs. Qed.
Lemma MV_int_res C z : MV any (int_res C z). Proof. unfold int_res. mvs. Qed.
#[export] Hint Resolve MV_conv MV_search_labels MV_search_local MV_get_reusable MV_search_reusables MV_char_escape MV_int_res : mv.
Lemma MV_extract p x : clean p -> MV (fun '(w, q, _) => clean q /\ oclean w) (extract_arg p x).
Proof.
  intros H. unfold extract_arg. eapply MV_bind; [apply MV_read_expr; exact H|]. intros r (H1 & H2).
  mvs; simpl; auto using clean_tl.
Qed.
Lemma MV_apply_op C o a b : MV any (apply_op C o a b).
Proof. destruct o; simpl; mvs. Qed.
#[export] Hint Resolve MV_apply_op : mv.

Section Fns.
Variable C : cfg.
Variable R : fns.
Hypothesis Hfull : forall p d, clean p -> MV okq (f_full R p d).
Hypothesis Heval : forall p, clean p -> MV clean (f_eval R p).
Hypothesis Hexp : forall d p l, clean p -> MV clean (f_expand R d p l).

Lemma MV_parse_num p : clean p -> MV any (parse_num R p).
Proof. intros H. unfold parse_num. mb; [mup|]. eapply MV_bind; [apply Hfull, H|]. intros [[q v]|] _; now apply MV_ret. Qed.
Lemma MV_parse_f p : clean p -> MV any (parse_f R p).
Proof. intros H. unfold parse_f. mb; [auto with mv|]. mb; [now apply MV_parse_num|]. mvs. Qed.
Lemma MV_define_loop base : forall fuel p, clean base -> clean p -> MV oclean (parse_define_loop R fuel base p).
Proof.
  induction fuel as [|f IH]; intros p Hb Hp s Hs; [exact I|]. cbn [parse_define_loop]. rewrite bind_get.
  destruct p as [|c p']; [split; [split; [reflexivity|exact Hs]|exact I]|]. set (p := c :: p') in *. clearbody p. clear c p'.
  destruct (s_erroc s); [split; [split; [reflexivity|exact Hs]|exact I]|]. cbv zeta.
  destruct (Z.eqb_spec (hd0 (skip_ws p)) 35) as [E|E]; [exfalso; revert E; apply clean_hd, clean_skip_ws, Hp|].
  destruct (is_eol (skip_ws p)).
  - rewrite bind_get, bind_upd.
    assert (Hs' : minv (set_line (s_line s + 1) s)) by (destruct Hs; split; assumption).
    exact (IH (next_code_line p) Hb (clean_next_code_line _ Hp) (set_line (s_line s + 1) s) Hs').
  - destruct (skip_to_code_line_end base (skip_ws p)); [|exact I].
    split; [split; [reflexivity|exact Hs]|]. apply clean_seg, clean_skip_ws, Hp.
Qed.
Lemma MV_parse_define r : MV oclean (parse_define R r).
Proof.
  unfold parse_define. eapply MV_bind; [apply MV_get_define|]. intros d Hd. cbv beta in Hd.
  destruct (d_contents d); [now apply MV_define_loop|now apply MV_ret].
Qed.
Lemma MV_reduce_body : forall n s, (length s <= n)%nat -> clean s -> forall q, MV any (reduce_body R s q).
Proof.
  induction n as [|n IH]; intros s Hn Hc q; (destruct s as [|c s]; [now apply MV_ret|]); [simpl in Hn; lia|]. simpl in Hn.
  cbn [reduce_body]. destruct (c =? 92).
  - destruct s as [|x s]; [apply MV_undef|]. mb.
    + apply MV_parse_num. inversion Hc; subst. inversion H2; subst.
      constructor; [discriminate|]. constructor; [discriminate|]. constructor; [assumption|]. constructor; [discriminate|constructor].
    + mb; [|destruct a0; now apply MV_ret]. apply IH; [simpl in Hn; lia|]. inversion Hc; subst. now inversion H2.
  - mb; [|destruct a; now apply MV_ret]. apply IH; [lia|]. now inversion Hc.
Qed.
Lemma MV_reduce_string s : clean s -> MV any (reduce_string R s).
Proof. intros H. unfold reduce_string. mb; [now apply (MV_reduce_body (length s))|]. destruct a. now apply MV_ret. Qed.
Lemma MV_parse_getc p : clean p -> MV okq (parse_getc C R p).
Proof.
  intros H. unfold parse_getc. eapply MV_bind; [apply MV_read_expr; exact H|]. intros r1 (H1 & H2).
  mb; [apply MV_search_defines|]. eapply MV_bind with (Q1 := clean).
  { destruct a as [r|]; [|now apply MV_ret]. eapply MV_bind; [apply MV_get_define|]. intros d Hd. cbv beta in Hd.
    destruct (d_contents d); [|apply MV_undef]. destruct (256 <=? _); [apply MV_undef|now apply MV_ret]. }
  intros fname Hf. eapply MV_bind; [apply MV_read_expr; exact H1|]. intros r2 (H3 & H4).
  mb; [now apply MV_parse_f|]. mb; [now apply MV_reduce_string|]. mb; [mvs|].
  apply MV_ret. simpl. destruct (_ =? 41); auto using clean_tl.
Qed.
Lemma MV_args_loop r id : forall fuel num x p, clean p -> MV (fun '(q, _) => clean q) (parse_args_loop C R fuel r id num x p).
Proof.
  induction fuel as [|f IH]; intros num x p Hp; [apply MV_nofuel|]. cbn [parse_args_loop].
  eapply MV_bind; [apply MV_extract, Hp|]. intros [[w q] x'] (Hq & Hw). destruct w as [word|]; [|now apply MV_ret].
  eapply MV_bind; [apply MV_get_define|]. intros d _. destruct (nth_error (d_args d) num) as [name|].
  2:{ mb; [auto with mv|]. now apply MV_ret. }
  eapply MV_bind with (Q1 := clean); [destruct (_ =? 64); [now apply MV_ret|now apply Heval]|]. intros v Hv.
  mb; [now apply MV_add_arg|]. now apply IH.
Qed.
Lemma MV_fill_args : forall names id, MV any (fill_args C names id).
Proof. induction names as [|n names IH]; intros id; [now apply MV_ret|]. cbn [fill_args]. mb; [now apply MV_add_arg|]. apply IH. Qed.
Lemma MV_parse_args p r : clean p -> MV (fun '(q, _) => clean q) (parse_args C R p r).
Proof.
  intros Hp. unfold parse_args. eapply MV_bind; [apply MV_get_define|]. intros d _. destruct (_ && _); [now apply MV_ret|].
  mb; [auto with mv|]. eapply MV_bind with (Q1 := fun '(q, _) => clean q).
  { destruct (_ =? 40); [|now apply MV_ret]. cbv zeta. assert (Hq : clean (skip_ws (tl p))) by auto using clean_skip_ws, clean_tl.
    destruct (_ && _); [now apply MV_args_loop|now apply MV_ret]. }
  intros [q num] Hq. eapply MV_bind; [apply MV_get_define|]. intros d' _. mb; [apply MV_fill_args|].
  apply MV_ret. destruct (_ =? 41); auto using clean_tl.
Qed.
Lemma MV_define_value p r : clean p -> MV okq (parse_define_value C R p r).
Proof.
  intros Hp. unfold parse_define_value. eapply MV_bind; [now apply MV_parse_args|]. intros [q args] Hq.
  mb; [apply MV_get|]. eapply MV_bind; [apply MV_get_define|]. intros d _. mb; [mup|]. mb; [auto with mv|].
  eapply MV_bind; [apply MV_parse_define|]. intros o Ho. mb.
  { destruct o as [t|]; [|mvs]. eapply MV_bind; [apply Hfull; exact Ho|]. intros [[x y]|] _; now apply MV_ret. }
  mb; [mup|]. mb; [apply MV_get|]. cbv zeta. mb; [mvs|]. mb; [auto with mv|]. mb; [auto with mv|].
  apply MV_ret. destruct (0 <? _); simpl; auto.
Qed.
Lemma MV_parse_name p : clean p -> MV okq (parse_name C R p).
Proof.
  intros H. unfold parse_name. cbv zeta. pose proof (clean_name_end _ H) as Hq. set (q := skip_to_name_end p) in *. set (name := seg p q).
  mb; [auto with mv|]. mb; [destruct a; mvs|]. mb; [destruct a, a0; mvs|]. destruct (eqbl name _).
  { mvs; exact Hq. }
  destruct a0 as [l|]; [now apply MV_ret|]. destruct (_ && _).
  { eapply MV_bind; [apply Hfull; exact Hq|]. intros [[x y]|] Ha; apply MV_ret; auto. }
  destruct (_ && _); [apply MV_parse_getc, clean_tl, Hq|]. destruct a1 as [r|]; [now apply MV_define_value|]. mvs.
Qed.
Lemma MV_num_result (q : text) (v : option Z) : clean q -> MV okq (ret (num_result q v)).
Proof. intros. apply MV_ret. destruct v; simpl; auto. Qed.
Lemma MV_parse_single p : clean p -> MV okq (parse_single C R p).
Proof.
  intros H. unfold parse_single. cbv zeta. pose proof (clean_tl _ H) as Ht.
  destruct (_ =? 43).
  { mb; [auto with mv|]. pose proof (clean_count_plus p a H) as Hq. destruct (count_plus p a) as [q i]. simpl in Hq.
    mvs. simpl. now apply clean_tl. }
  destruct (_ =? 45).
  { mb; [auto with mv|]. pose proof (clean_count_minus _ a Ht) as Hq. destruct (count_minus (tl p) a) as [q i]. simpl in Hq.
    mvs. simpl. now apply clean_tl. }
  destruct (_ =? 36).
  { destruct (isxdigit _); [mb; [apply MV_conv|apply MV_num_result; now apply clean_skip_alnum]|]. mvs. }
  destruct (_ =? 37); [mb; [apply MV_conv|apply MV_num_result; now apply clean_skip_alnum]|].
  destruct (_ =? 39).
  { destruct (tl p) as [|c1 p1]; [apply MV_undef|]. inversion Ht as [|x l X1 X2]; subst.
    eapply MV_bind with (Q1 := fun '(v, e) => clean e).
    - destruct (c1 =? 92); [|now apply MV_ret]. destruct p1 as [|c2 p2]; [apply MV_undef|]. inversion X2; subst.
      mb; [auto with mv|]. now apply MV_ret.
    - intros [v e] He. destruct (_ =? 39); [apply MV_ret; simpl; now apply clean_tl|].
      mb; [auto with mv|]. now apply MV_ret. }
  destruct (_ || _); [now apply MV_parse_name|].
  destruct (isdigit _); [|mvs]. assert (Hl : clean (last_alnum p)) by now apply clean_last_alnum.
  mb; [|apply MV_num_result; auto using clean_tl]. repeat mif; apply MV_conv.
Qed.
Lemma MV_get_op : forall fuel depth p, clean p -> MV op_clean (get_op fuel depth p).
Proof.
  induction fuel as [|f IH]; intros depth p H; [apply MV_nofuel|]. cbn [get_op]. cbv zeta.
  apply clean_skip_ws in H. set (p' := skip_ws p) in *. clearbody p'. clear p.
  destruct (is_eol p'). { mb; [mvs|]. now apply MV_ret. }
  destruct (match_op math_defs p') as [[o q]|] eqn:E.
  { apply clean_match_op in E; [|exact H]. apply clean_skip_ws in E. destruct (skip_ws q) as [|c q']; [mvs|]. now apply MV_ret. }
  destruct (_ =? 41); [|mvs]. destruct (0 <? depth).
  - apply MV_ret. simpl. auto using clean_skip_ws, clean_tl.
  - mb; [auto with mv|]. apply IH. now apply clean_tl.
Qed.
Lemma MV_dec_depth : MV any dec_depth.
Proof. unfold dec_depth. mvs. Qed.
Lemma MV_num_loop : forall fuel depth total op ln p, clean p -> MV okq (num_loop C R fuel depth total op ln p).
Proof.
  induction fuel as [|f IH]; intros depth total op ln p H; [apply MV_nofuel|]. cbn [num_loop].
  destruct (unary p) as [[i n] p1] eqn:U. apply (clean_unary _ _ _ _ H) in U.
  eapply MV_bind with (Q1 := okq).
  { destruct (_ =? 40); [|now apply MV_parse_single]. eapply MV_bind; [apply Hfull; now apply clean_tl|].
    intros [[a b]|] Ha; apply MV_ret; auto. }
  intros [[q v]|] Hq; [|now apply MV_ret]. simpl in Hq. mif; [|apply MV_undef]. cbv zeta.
  mb; [mvs|]. mif; [mvs|]. mif; [mvs|]. mb; [auto with mv|].
  eapply MV_bind; [apply MV_get_op, Hq|]. intros [q1|q1|o q1|] Hq1; simpl in Hq1.
  - mb; [apply MV_dec_depth|]. now apply MV_ret.
  - mb; [apply MV_dec_depth|]. now apply MV_ret.
  - now apply IH.
  - now apply MV_ret.
Qed.
Lemma MV_num_full p d : clean p -> MV okq (parse_num_full C R p d).
Proof.
  intros H. unfold parse_num_full. mb; [mup|]. mb; [apply MV_get|]. mb; [mup|]. mif; [mvs|]. cbv zeta. apply clean_skip_ws in H.
  destruct (skip_ws p) as [|c p'] eqn:E; [mvs|]. now apply MV_num_loop.
Qed.
Lemma MV_expand_loop : forall fuel depth local p, clean p -> MV clean (expand_loop C R fuel depth local p).
Proof.
  induction fuel as [|f IH]; intros depth local p H; [apply MV_nofuel|]. cbn [expand_loop].
  destruct p as [|c p']; [apply MV_ret; constructor|].
  destruct (if hd0 (c :: p') =? 34 then _ else _) as [out1 p] eqn:E.
  assert (K : clean out1 /\ clean p).
  { destruct (_ =? 34); [|inversion E; subst; split; [constructor|exact H]]. cbv zeta in E.
    inversion E; subst. split; [apply clean_seg, H|]. apply (clean_after_string (tl (c :: p'))). now apply clean_tl. }
  clear E H c p'. destruct K as (H1 & H2). cbv zeta.
  assert (Rest : forall out2 p, clean out2 -> clean p ->
    MV clean (t <- expand_loop C R f depth local (skip_seps p) ;; ret (out1 ++ out2 ++ seg p (skip_seps p) ++ t))).
  { intros out2 q Ho Hq. eapply MV_bind; [apply IH, clean_skip_seps, Hq|]. intros t Ht. apply MV_ret.
    repeat apply clean_app; auto. now apply clean_seg. }
  destruct (Nat.ltb _ _).
  2:{ destruct p as [|c p]; [apply (Rest [] []); constructor|]. inversion H2; subst. apply Rest; [|assumption]. constructor; [assumption|constructor]. }
  mb; [auto with mv|]. eapply MV_bind with (Q1 := fun x => match x with Some (r, d, t) => clean t | None => True end).
  { destruct a as [r|]; [|now apply MV_ret]. eapply MV_bind; [apply MV_get_define|]. intros d Hd. cbv beta in Hd.
    destruct (d_contents d); now apply MV_ret. }
  intros [[[r d] t]|] Ht.
  2:{ mb; [auto with mv|]. destruct a0 as [l|].
      - apply Rest; [apply clean_firstn, clean_dec|now apply clean_name_end].
      - apply Rest; [now apply clean_seg|now apply clean_name_end]. }
  eapply MV_bind with (Q1 := fun '(q, _) => clean q).
  { destruct (Nat.ltb _ _); [apply MV_parse_args; now apply clean_name_end|]. apply MV_ret. now apply clean_name_end. }
  intros [q args] Hq. eapply MV_bind; [apply MV_get_define|]. intros d' Hd'. cbv beta in Hd'.
  destruct (d_contents d') as [t'|]; [|intros s Hs; exact I]. eapply MV_bind with (Q1 := clean); [now apply MV_ret|]. intros t2 Ht2.
  eapply MV_bind; [apply Hexp, Ht2|]. intros out2 Ho. mb; [auto with mv|]. mb; [apply MV_get|].
  mif; [apply MV_ret; now apply clean_app|now apply Rest].
Qed.
Lemma MV_expand_full d p l : clean p -> MV clean (expand_expr_full C R d p l).
Proof.
  intros H. unfold expand_expr_full. mif; [mb; [auto with mv|]; apply MV_ret; constructor|now apply MV_expand_loop].
Qed.
Lemma MV_eval p : clean p -> MV clean (eval C R p).
Proof.
  intros H. unfold eval. mb; [auto with mv|]. mb; [now apply MV_parse_num|]. mb; [auto with mv|].
  destruct a0 as [v|]; [|apply Hexp, H]. mif.
  - mb; [auto with mv|]. apply MV_ret. constructor; [discriminate|]. constructor; [discriminate|apply clean_hexmin].
  - apply MV_ret. constructor; [discriminate|apply clean_hexmin].
Qed.

(** Output to the console or a buffer. *)
Hypothesis Hemit : forall p t, is_data t = false -> clean p -> MV any (f_emit R p t).
Lemma MV_echo_error t o : MV any (echo_error C t o).
Proof. unfold echo_error. mvs. Qed.
Lemma MV_emit_define t n r p : is_data t = false -> clean p -> MV any (emit_define C R t n r p).
Proof.
  intros Ht H. unfold emit_define. eapply MV_bind; [apply MV_get_define|]. intros d _. mb; [mvs|].
  eapply MV_bind; [now apply MV_parse_args|]. intros [q args] _. eapply MV_bind; [apply MV_parse_define|]. intros o Ho. mb.
  { destruct o as [t'|]; [|now apply MV_ret]. eapply MV_bind; [apply MV_extract, Ho|]. intros [[w q1] more] (Hq & _).
    eapply MV_bind; [apply MV_extract, Hq|]. intros [[sec q2] more2] _. destruct sec.
    - mb; [now apply Hemit|]. mif. now apply MV_ret.
    - mb; [apply MV_get|]. mif; [mvs|]. mb; [auto with mv|]. mb; [now apply Hemit|]. mif. mvs. }
  mvs.
Qed.
Lemma clean_back1 a b : clean a -> clean (back1 a b).
Proof. intros H. now apply clean_skipn. Qed.
Lemma MV_emit_word word t o : is_data t = false -> clean word -> MV any (emit_word C R word t o).
Proof.
  intros Ht H. unfold emit_word. rewrite Ht. mif.
  { destruct (next_expr _ _); [|mb; [apply MV_echo_error|now apply MV_ret]]. mb; [now apply MV_reduce_string|]. now apply MV_ret. }
  mb; [auto with mv|]. mb; [now apply MV_parse_num|]. mb; [apply MV_get|]. mif; [mvs|]. mif; [mvs|].
  eapply MV_bind; [apply MV_read_expr, H|]. intros w (H1 & H2). cbv zeta.
  eapply MV_bind; [apply MV_read_expr', H1|]. intros nx (H3 & H4).
  destruct (rx_ptr nx); [|mb; [apply MV_echo_error|now apply MV_ret]]. mb; [auto with mv|].
  mif; [|mb; [apply MV_echo_error|now apply MV_ret]]. mb; [apply MV_emit_define; [exact Ht|]|mvs].
  destruct (_ =? 40); auto using clean_back1.
Qed.
Lemma MV_emit_loop t : is_data t = false -> forall fuel o x p, clean p -> MV any (emit_loop C R fuel t o x p).
Proof.
  intros Ht. induction fuel as [|f IH]; intros o x p H; [apply MV_nofuel|]. cbn [emit_loop].
  eapply MV_bind; [apply MV_extract, H|]. intros [[w q] x'] (Hq & Hw). destruct w as [word|]; [|now apply MV_ret].
  mb; [now apply MV_emit_word|]. mif. mb; [now apply IH|]. mif. now apply MV_ret.
Qed.
Lemma MV_emit p t : is_data t = false -> clean p -> MV any (parse_emit_string C R p t).
Proof.
  intros Ht H. unfold parse_emit_string. mb; [apply MV_get|]. mb; [mup|]. mb; [now apply MV_emit_loop|]. mif. mvs.
Qed.
End Fns.

Record mvfns (R : fns) : Prop := mkmvfns {
  mf_full : forall p d, clean p -> MV okq (f_full R p d);
  mf_eval : forall p, clean p -> MV clean (f_eval R p);
  mf_expand : forall d p l, clean p -> MV clean (f_expand R d p l);
  mf_emit : forall p t, is_data t = false -> clean p -> MV any (f_emit R p t) }.
Lemma knot_mv C n : mvfns (knot C n).
Proof.
  induction n as [|n [IH1 IH2 IH3 IH4]].
  - split; intros; apply MV_nofuel.
  - split; intros; cbn [knot f_full f_eval f_expand f_emit].
    + now apply MV_num_full.
    + now apply MV_eval.
    + now apply MV_expand_full.
    + now apply MV_emit.
Qed.
