(** A second pass that records no problem gave every queued operand a value. *)
From Verif Require Import Base BaseProofs State UtilsModel ErrorsModel StorageModel ParserModel PassTwoModel
  PreopModel PassOneModel DirectiveModel Knot MonadProofs UtilsSpec UtilsProofs StorageSpec StorageProofs
  PassTwoSpec PassTwoProofs EvalSpec EvalProofs SecondSpec FrameProofs SecondProofs.

Record went (s s' : st) : Prop := mkwent {
  go_inv : inv s';
  go_labels : s_labels s' = s_labels s;
  go_reus : s_reus s' = s_reus s;
  go_errs : (length (s_errs s) <= length (s_errs s'))%nat }.
Lemma went_trans a b c : went a b -> went b c -> went a c.
Proof. intros [] []. split; [assumption|congruence|congruence|lia]. Qed.
Lemma went_ev s s' : ev s s' -> inv s' -> went s s'.
Proof.
  intros H Hi. pose proof (ev_length _ _ H). destruct H as [H _ _ _ _ _].
  split; [exact Hi|exact (f_equal s_labels H)|exact (f_equal s_reus H)|assumption].
Qed.
Lemma went_wrote k s s' : inv s -> wrote k s s' -> went s s'.
Proof.
  intros Hi H. pose proof (wrote_file _ _ _ H) as Hf. destruct H as [H1 H2 H3 (new & H4 & H5) H6 _ _ _]. split.
  - destruct Hi. split; rewrite ?H2, ?H3, ?Hf, ?H6; auto. rewrite H4. apply Forall_app. split; [|assumption].
    eapply Forall_impl; [|exact H5]. simpl. intros e (K & _). lia.
  - exact (f_equal s_labels H1).
  - exact (f_equal s_reus H1).
  - rewrite H4, app_length. lia.
Qed.

Section Resolve.
Variable C : cfg.
Variable R : fns.
Hypothesis HR : evfns R.

Lemma expr_went e s : qclean e -> inv s ->
  match second_pass_expr C R e s with
  | Ok _ s' => went s s' /\ (length (s_errs s') = length (s_errs s) -> has_value R s e)
  | Exit _ _ => False
  | _ => True
  end.
Proof.
  intros (H1 & H2) Hs. unfold second_pass_expr. rewrite !bind_upd. unfold set_curr_reusable. rewrite bind_upd.
  set (s1 := set_curr_reus _ _). assert (I1 : inv s1) by (destruct Hs; split; auto).
  assert (F1 : went s s1) by (split; auto).
  unfold bind at 1. pose proof (EV_parse_num R (vf_full _ HR) (x_expr e) H1 s1 I1) as K.
  destruct (parse_num R (x_expr e) s1) as [r s2|? s2|?|] eqn:E; auto. destruct K as (K1 & K2 & _ & K4).
  pose proof (went_trans _ _ _ F1 (went_ev _ _ K1 K2)) as F2.
  destruct r as [v|].
  2:{ split; [exact F2|]. intros L. specialize (K4 eq_refl). unfold grew in K4. exfalso.
      pose proof (go_errs _ _ F1). lia. }
  assert (V : has_value R s e) by (exists s1, v, s2; repeat split; first [reflexivity|exact E]).
  assert (Wr : forall k (m : M unit) p, W k m -> match m (set_pos p s2) with
      | Ok _ s' => went s s' /\ (length (s_errs s') = length (s_errs s) -> has_value R s e) | Exit _ _ => False | _ => True end).
  { intros k m p Hm. assert (I3 : inv (set_pos p s2)) by (destruct K2; split; assumption).
    assert (F3 : went s (set_pos p s2)) by (destruct F2; split; assumption).
    specialize (Hm (set_pos p s2)). destruct (m (set_pos p s2)) as [u s3|? ?|?|]; auto. split; [|auto].
    eapply went_trans; [exact F3|]. eapply went_wrote; eauto. }
  assert (Same : set_pos (s_pos s2) s2 = s2) by (destruct s2; reflexivity).
  destruct (x_type e);
  try (rewrite bind_upd; eapply Wr; apply W_arg).
  destruct (rst_ok v); rewrite <- Same; eapply Wr; [apply W_arg|apply (W_problem 0); [lia|discriminate]].
Qed.
Lemma has_value_labels s s' e : s_labels s' = s_labels s -> s_reus s' = s_reus s -> has_value R s' e -> has_value R s e.
Proof. intros H1 H2 (s1 & v & s2 & K1 & K2 & K3 & K4 & K5). exists s1, v, s2. rewrite K1, K4. repeat split; auto. Qed.
Lemma exprs_went : forall q s, Forall qclean q -> inv s ->
  match second_pass_exprs C R q s with
  | Ok _ s' => went s s' /\ (length (s_errs s') = length (s_errs s) -> Forall (has_value R s) q)
  | Exit _ _ => False
  | _ => True
  end.
Proof.
  induction q as [|e q IH]; intros s Hq Hs; [split; [split; auto|intros; constructor]|]. cbn [second_pass_exprs].
  inversion Hq; subst. unfold bind. pose proof (expr_went e s H1 Hs) as K.
  destruct (second_pass_expr C R e s) as [u s1|? ?|?|]; auto. destruct K as (K1 & K2).
  specialize (IH s1 H2 (go_inv _ _ K1)). destruct (second_pass_exprs C R q s1) as [u' s2|? ?|?|]; auto. destruct IH as (L1 & L2).
  split; [eapply went_trans; eauto|]. intros E. pose proof (go_errs _ _ K1). pose proof (go_errs _ _ L1).
  constructor; [apply K2; lia|]. eapply Forall_impl; [|apply L2; lia]. intros x. apply has_value_labels; apply K1.
Qed.
End Resolve.

(** * The placeholder *)
(** [m] writes exactly [k] bytes. *)
Definition grown (k : Z) (s s' : st) : Prop :=
  s_exprs s' = s_exprs s /\ s_pos s' = s_pos s + k /\
  (0 <= s_pos s -> zlen (s_mem s') = Z.max (zlen (s_mem s)) (if k =? 0 then 0 else s_pos s + k)).
Definition WE {A} (k : Z) (m : M A) : Prop := forall s, match m s with Ok _ s' => grown k s s' | _ => True end.
Lemma grown_trans k1 k2 s1 s2 s3 : 0 <= k1 -> 0 <= k2 -> grown k1 s1 s2 -> grown k2 s2 s3 -> grown (k1 + k2) s1 s3.
Proof.
  intros N1 N2 (H1 & H2 & H3) (K1 & K2 & K3). split; [congruence|]. split; [lia|]. intros P.
  rewrite K3 by lia. rewrite H3 by lia. rewrite H2. destruct (Z.eqb_spec k1 0), (Z.eqb_spec k2 0), (Z.eqb_spec (k1 + k2) 0); lia.
Qed.
Lemma WE_bind {A B} k1 k2 (m : M A) (f : A -> M B) : 0 <= k1 -> 0 <= k2 -> WE k1 m -> (forall a, WE k2 (f a)) -> WE (k1 + k2) (bind m f).
Proof.
  intros N1 N2 H1 H2 s. unfold bind. specialize (H1 s). destruct (m s) as [a s1|? ?|?|]; auto.
  specialize (H2 a s1). destruct (f a s1) as [b s2|? ?|?|]; auto. eapply grown_trans; eauto.
Qed.
Lemma grown_0 s s' : s_exprs s' = s_exprs s -> s_pos s' = s_pos s -> s_mem s' = s_mem s -> grown 0 s s'.
Proof. intros E1 E2 E3. split; [exact E1|]. split; [lia|]. intros P. rewrite E3. unfold zlen. simpl. lia. Qed.
Lemma WE_write v : WE 1 (write_out v).
Proof.
  intros s. unfold write_out. rewrite bind_get. destruct (_ && _) eqn:E; [|exact I]. rewrite bind_get, bind_upd.
  unfold upd. rewrite put_at_splice. split; [reflexivity|]. split; [reflexivity|]. intros P. unfold zlen. cbn [s_mem set_pos set_mem].
  rewrite splice_length. simpl. lia.
Qed.
Lemma WE_then {A B} k (m : M A) (f : A -> M B) : 0 <= k -> WE 0 m -> (forall a, WE k (f a)) -> WE k (bind m f).
Proof. intros. change k with (0 + k). apply WE_bind; auto; lia. Qed.
Lemma WE_problem w c : WE 0 (set_problem w c). Proof. intros s. now apply grown_0. Qed.
Lemma WE_raise n : WE 0 (raise_exit n). Proof. intros s. now apply grown_0. Qed.
Lemma WE_get {A} (f : st -> A) : WE 0 (get f). Proof. intros s. now apply grown_0. Qed.
Lemma WE_when b (m : M unit) : WE 0 m -> WE 0 (whenM b m).
Proof. intros H. destruct b; [exact H|]. intros s. now apply grown_0. Qed.
Lemma WE_arg C v t z o : t <> ARG_RST \/ rst_ok v = true -> WE (Z.of_nat (slot t)) (write_arg C v t z o).
Proof.
  intros Ht. destruct t; cbn [write_arg slot Z.of_nat Pos.of_succ_nat Pos.succ].
  - apply WE_then; [lia|apply WE_when, WE_problem|intros _]. apply WE_write.
  - apply WE_then; [lia|apply WE_when, WE_problem|intros _]. apply (WE_bind 1 1); try lia; [apply WE_write|intros _; apply WE_write].
  - apply (WE_bind 1 2); try lia; [apply WE_write|intros _]. apply (WE_bind 1 1); try lia; [apply WE_write|intros _; apply WE_write].
  - apply WE_then; [lia|apply WE_get|intros pc]. cbv zeta. destruct (_ || _); [|apply WE_write].
    apply WE_then; [lia|apply WE_problem|intros _; apply WE_write].
  - destruct (_ || _); [|apply WE_write]. apply WE_then; [lia|apply WE_problem|intros _; apply WE_write].
  - cbv zeta. apply WE_then; [lia|apply WE_when, WE_raise|intros _]. apply WE_write.
  - destruct Ht as [Ht|Ht]; [congruence|]. rewrite Ht. apply WE_write.
Qed.

(** What [add_pass_two_expr] does to the queue. *)
Definition queue_step (t : arg_type) (s s' : st) : Prop :=
  s_exprs s' = s_exprs s \/
  exists x, s_exprs s' = s_exprs s ++ [x] /\ x_pos x = s_pos s /\ x_type x = t /\ s_pos s' = s_pos s + Z.of_nat (slot t).
Lemma slots_more q m m' : slots_in q m -> zlen m <= zlen m' -> slots_in q m'.
Proof. intros H L. eapply Forall_impl; [|exact H]. simpl. lia. Qed.
Lemma add_expr_ok C R (HR : mvfns R) expr t sz o s : minv s -> clean expr -> 0 <= s_pos s ->
  slots_in (s_exprs s) (s_mem s) ->
  match add_pass_two_expr C R expr t sz o s with
  | Ok _ s' => slots_in (s_exprs s') (s_mem s') /\ queue_step t s s'
  | _ => True
  end.
Proof.
  intros Hs He Hp Hq. unfold add_pass_two_expr.
  (* steps that leave the data alone *)
  assert (Mv : forall A (Q : A -> Prop) (m : M A) s1, MV Q m -> minv s1 ->
     match m s1 with Ok a s2 => Q a /\ minv s2 /\ s_mem s2 = s_mem s1 /\ s_pos s2 = s_pos s1 /\ s_exprs s2 = s_exprs s1 | _ => True end).
  { intros A Q m s1 Hm I1. specialize (Hm s1 I1). destruct (m s1); auto. destruct Hm as (X & Y).
    split; [exact Y|]. split; [apply X|]. split; [now apply mstep_mem|]. split; [now apply mstep_pos|now apply mstep_exprs]. }
  unfold bind at 1. pose proof (Mv _ _ _ s MV_start Hs) as K. destruct (start_session s) as [n s1|? ?|?|]; auto.
  destruct K as (_ & I1 & M1 & P1 & E1). unfold bind at 1.
  pose proof (Mv _ _ _ s1 (MV_parse_num R (mf_full _ HR) expr He) I1) as K. destruct (parse_num R expr s1) as [r s2|? ?|?|]; auto.
  destruct K as (_ & I2 & M2 & P2 & E2). rewrite bind_get.
  assert (B : s_mem s2 = s_mem s /\ s_pos s2 = s_pos s /\ s_exprs s2 = s_exprs s) by (repeat split; congruence).
  clear M1 P1 E1 M2 P2 E2 I1 s1. destruct B as (M2 & P2 & E2).
  (* the middle part *)
  match goal with |- match bind ?mid _ s2 with _ => _ end =>
    assert (Md : match mid s2 with Ok _ s3 => minv s3 /\ slots_in (s_exprs s3) (s_mem s3) /\ queue_step t s s3 | _ => True end) end.
  { assert (Rp : forall s3 f, minv s3 -> slots_in (s_exprs s3) (s_mem s3) -> queue_step t s s3 ->
      match replay_session C n f s3 with Ok _ s4 => minv s4 /\ slots_in (s_exprs s4) (s_mem s4) /\ queue_step t s s4 | _ => True end).
    { intros s3 f I3 S3 Q3. pose proof (Mv _ _ _ s3 (MV_replay C n f) I3) as K. destruct (replay_session C n f s3) as [u s4|? ?|?|]; auto.
      destruct K as (_ & I4 & M4 & P4 & E4). split; [exact I4|]. rewrite E4, M4. split; [exact S3|].
      unfold queue_step in *. rewrite E4, P4. exact Q3. }
    destruct r as [v|].
    - unfold bind. pose proof (W_arg C v t sz o s2) as Kw.
      assert (G : match write_arg C v t sz o s2 with Ok _ s3 => s_exprs s3 = s_exprs s2 /\ zlen (s_mem s2) <= zlen (s_mem s3) | _ => True end).
      { destruct (match t with ARG_RST => rst_ok v | _ => true end) eqn:Er.
        - assert (T : t <> ARG_RST \/ rst_ok v = true) by (destruct t; auto; left; discriminate).
          pose proof (WE_arg C v t sz o T s2) as G. destruct (write_arg C v t sz o s2); auto. destruct G as (G1 & _ & G2).
          split; [exact G1|]. rewrite G2 by lia. lia.
        - destruct t; try discriminate. simpl. rewrite Er. simpl. split; [reflexivity|lia]. }
      destruct (write_arg C v t sz o s2) as [u s3|? ?|?|]; auto. destruct G as (G1 & G2). apply Rp.
      + eapply wrote_minv; eauto.
      + rewrite G1, E2. eapply slots_more; [exact Hq|]. rewrite <- M2. exact G2.
      + left. congruence.
    - destruct (sess_fatal n (s_errs s2)).
      + apply Rp; [exact I2|rewrite E2, M2; exact Hq|left; exact E2].
      + rewrite !bind_get. unfold get_curr_reusable. rewrite bind_assoc, bind_get, bind_ret, !bind_get. unfold expand_expr. unfold bind at 1.
        pose proof (Mv _ _ _ s2 (mf_expand _ HR 0 expr true He) I2) as K. destruct (f_expand R 0 expr true s2) as [e s3|? ?|?|]; auto.
        destruct K as (_ & I3 & M3 & P3 & E3). rewrite bind_get, bind_upd. set (x := mkpexpr _ _ _ _ _ _ _ _ _).
        set (s4 := set_exprs _ s3). assert (I4 : minv s4) by (destruct I3; split; assumption).
        set (t' := match t with ARG_ADDR_OFFSET => ARG_NUM_8 | _ => t end).
        assert (Sl : slot t' = slot t) by (destruct t; reflexivity).
        assert (T : t' <> ARG_RST \/ rst_ok 0 = true) by (right; reflexivity).
        pose proof (WE_arg C 0 t' sz 0 T s4) as G. pose proof (W_arg C 0 t' sz 0 s4) as Kw.
        destruct (write_arg C 0 t' sz 0 s4) as [u s5|? ?|?|]; auto. destruct G as (G1 & G2 & G3).
        rewrite Sl in *. assert (Px : x_pos x = s_pos s) by (simpl; exact P2).
        assert (E5 : s_exprs s5 = s_exprs s ++ [x]) by (rewrite G1; simpl; rewrite E3, E2; reflexivity).
        simpl in G2. rewrite P3, P2 in G2.
        assert (L5 : zlen (s_mem s5) = Z.max (zlen (s_mem s)) (s_pos s + Z.of_nat (slot t))).
        { rewrite G3 by (simpl; lia). simpl. rewrite M3, M2, P3, P2. destruct t; reflexivity. }
        split; [eapply wrote_minv; eauto|]. split.
        * rewrite E5. apply Forall_app. split; [eapply slots_more; [exact Hq|lia]|]. constructor; [|constructor].
          rewrite Px. change (x_type x) with t. lia.
        * right. exists x. split; [exact E5|]. split; [exact Px|]. split; [reflexivity|exact G2]. }
  unfold bind at 1. match goal with |- match match ?m with _ => _ end with _ => _ end => destruct m as [u s3|? ?|?|] end; auto.
  destruct Md as (I3 & S3 & Q3). pose proof (Mv _ _ _ s3 (MV_end n) I3) as K. destruct (end_session n s3) as [u' s4|? ?|?|]; auto.
  destruct K as (_ & _ & M4 & P4 & E4). rewrite E4, M4. split; [exact S3|]. unfold queue_step in *. rewrite E4, P4. exact Q3.
Qed.
