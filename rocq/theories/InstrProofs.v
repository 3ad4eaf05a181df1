(** The number of bytes an instruction emits. *)
From Verif Require Import Base BaseProofs State UtilsModel ErrorsModel StorageModel ParserModel PassTwoModel
  PreopModel PassOneModel DirectiveModel Knot MonadProofs UtilsSpec UtilsProofs StorageProofs PassTwoSpec PassTwoProofs
  EvalSpec EvalProofs SecondSpec FrameProofs SecondProofs ResolveProofs InstrSpec.

(** Everything that emitting code leaves alone. *)
Definition ecore (s : st) : st := set_mem [] (set_pos 0 (set_exprs [] (core s))).
(** [k] bytes were emitted, or a problem was recorded. *)
Record put (k : Z) (s s' : st) : Prop := mkput {
  pt_core : ecore s' = ecore s;
  pt_defs : tlike (s_defines s) (s_defines s');
  pt_args : alike (s_args s) (s_args s');
  pt_errs : exists new, s_errs s' = new ++ s_errs s /\ noted_by (s_sess s) new;
  pt_exit : s_exitc s <= s_exitc s';
  pt_erroc : s_erroc s = true -> s_erroc s' = true;
  pt_inv : inv s';
  pt_pos : s_pos s' = s_pos s + k \/ grew s s';
  pt_up : s_pos s <= s_pos s';
  pt_low : forall i, 0 <= s_pos s -> Z.of_nat i < s_pos s -> nth i (s_mem s') 0 = nth i (s_mem s) 0 }.
Definition P {A} (k : Z) (m : M A) : Prop := forall s, inv s ->
  match m s with Ok _ s' => put k s s' | Exit _ _ => False | _ => True end.
Lemma ecore_sess s s' : ecore s' = ecore s -> s_sess s' = s_sess s.
Proof. intros H. exact (f_equal s_sess H). Qed.
Lemma put_length k s s' : put k s s' -> (length (s_errs s) <= length (s_errs s'))%nat.
Proof. intros [_ _ _ (n & -> & _) _ _ _ _ _ _]. rewrite app_length. lia. Qed.
Lemma put_trans k1 k2 a b c : put k1 a b -> put k2 b c -> put (k1 + k2) a c.
Proof.
  intros H1 H2. pose proof (put_length _ _ _ H1). pose proof (put_length _ _ _ H2).
  destruct H1 as [A1 A2 A3 (n1 & A4 & A5) A6 A7 A8 A9 A10 A11], H2 as [B1 B2 B3 (n2 & B4 & B5) B6 B7 B8 B9 B10 B11].
  split; [congruence|eapply tlike_trans; eauto|eapply alike_trans; eauto| |lia|auto|exact B8| |lia|].
  - exists (n2 ++ n1). split; [rewrite B4, A4; apply app_assoc|]. apply Forall_app. split; [|assumption].
    rewrite <- (ecore_sess _ _ A1). exact B5.
  - unfold grew in *. destruct A9 as [A9|A9]; [|right; lia]. destruct B9 as [B9|B9]; [left; lia|right; lia].
  - intros i Hp Hi. rewrite B11, A11; auto; lia.
Qed.
Lemma P_bind {A B} k1 k2 (m : M A) (f : A -> M B) : P k1 m -> (forall a, P k2 (f a)) -> P (k1 + k2) (bind m f).
Proof.
  intros H1 H2 s Hs. unfold bind. specialize (H1 s Hs). destruct (m s) as [a s1|? ?|?|]; auto.
  specialize (H2 a s1 (pt_inv _ _ _ H1)). destruct (f a s1) as [b s2|? ?|?|]; auto. eapply put_trans; eauto.
Qed.
Lemma P_then {A B} k (m : M A) (f : A -> M B) : P 0 m -> (forall a, P k (f a)) -> P k (bind m f).
Proof. intros H1 H2. change k with (0 + k). now apply P_bind. Qed.
Lemma ev_put s s' : ev s s' -> inv s' -> put 0 s s'.
Proof.
  intros [A1 A2 A3 A4 A5 A6] Hi. split; auto.
  - unfold ecore. now rewrite A1.
  - left. rewrite (f_equal s_pos A1 : s_pos s' = s_pos s). lia.
  - rewrite (f_equal s_pos A1 : s_pos s' = s_pos s). lia.
  - intros i _ _. now rewrite (f_equal s_mem A1 : s_mem s' = s_mem s).
Qed.
Lemma EV_P {A} Q F (m : M A) : EV Q F m -> P 0 m.
Proof. intros H s Hs. specialize (H s Hs). destruct (m s); auto. destruct H as (H1 & H2 & _). now apply ev_put. Qed.
Lemma P_ret {A} (a : A) : P 0 (ret a).
Proof. apply (EV_P any never), EV_ret; [exact I|reflexivity]. Qed.
Lemma P_get {A} (f : st -> A) : P 0 (get f). Proof. eapply EV_P, EV_get. Qed.
Lemma P_when k (b : bool) (m : M unit) : P k m -> P (if b then k else 0) (whenM b m).
Proof. intros H. destruct b; [exact H|apply P_ret]. Qed.
Lemma wcore_ecore s s' : wcore s' = wcore s -> s_sess s' = s_sess s -> s_line s' = s_line s -> s_printed s' = s_printed s ->
  s_emitlev s' = s_emitlev s -> ecore s' = ecore s.
Proof.
  intros H E1 E2 E3 E4.
  assert (G : forall x, ecore x = set_exprs [] (set_line (s_line x) (set_sess (s_sess x) (set_printed (s_printed x) (set_emitlev (s_emitlev x) (wcore x)))))).
  { intros []. reflexivity. }
  rewrite (G s'), (G s). congruence.
Qed.
(** [write_arg] and [write_out] leave the remaining fields alone. *)
Definition quiet {A} (m : M A) : Prop := forall s,
  match m s with Ok _ s' => s_line s' = s_line s /\ s_printed s' = s_printed s /\ s_emitlev s' = s_emitlev s /\
    s_exitc s <= s_exitc s' /\ s_erroc s' = s_erroc s | _ => True end.
Lemma Q_bind {A B} (m : M A) (f : A -> M B) : quiet m -> (forall a, quiet (f a)) -> quiet (bind m f).
Proof.
  intros H1 H2 s. unfold bind. specialize (H1 s). destruct (m s) as [a s1|? ?|?|]; auto.
  specialize (H2 a s1). destruct (f a s1) as [b s2|? ?|?|]; auto. destruct H1 as (A1 & A2 & A3 & A4 & A5), H2 as (B1 & B2 & B3 & B4 & B5).
  repeat split; try congruence. lia.
Qed.
Lemma Q_get {A} (f : st -> A) : quiet (get f). Proof. intros s. simpl. repeat split; lia. Qed.
Lemma Q_problem w c : quiet (set_problem w c). Proof. intros s. simpl. repeat split; lia. Qed.
Lemma Q_raise n : quiet (raise_exit n).
Proof. intros s. simpl. repeat split. destruct (s_exitc s <? n) eqn:E; lia. Qed.
Lemma Q_ret {A} (a : A) : quiet (ret a). Proof. intros s. simpl. repeat split; lia. Qed.
Lemma Q_write v : quiet (write_out v).
Proof. intros s. unfold write_out. rewrite bind_get. destruct (_ && _); [|exact I]. simpl. repeat split; lia. Qed.
Lemma Q_when b (m : M unit) : quiet m -> quiet (whenM b m).
Proof. intros H. destruct b; [exact H|apply Q_ret]. Qed.
Lemma Q_arg C v t z o : quiet (write_arg C v t z o).
Proof.
  destruct t; cbn [write_arg]; cbv zeta;
    repeat first [apply Q_write | apply Q_problem | apply Q_get | apply Q_raise | apply Q_when | apply Q_bind; [|intros ?]
      | match goal with |- quiet (if ?b then _ else _) => destruct b end].
Qed.
Lemma wrote_put k s s' : inv s -> wrote k s s' -> s_line s' = s_line s -> s_printed s' = s_printed s ->
  s_emitlev s' = s_emitlev s -> s_exitc s <= s_exitc s' -> s_erroc s' = s_erroc s ->
  (s_pos s' = s_pos s + k \/ grew s s') -> put k s s'.
Proof.
  intros Hs [A1 A2 A3 (n & A4 & A5) A6 A7 _ A8] E1 E2 E3 E4 E5 E6. split; auto.
  - now apply wcore_ecore.
  - rewrite A2. apply tlike_refl.
  - rewrite A3. apply alike_refl.
  - eauto.
  - congruence.
  - pose proof (f_equal s_file A1 : s_file s' = s_file s) as F. destruct Hs. split; rewrite ?A2, ?A3, ?A6, ?F; auto. rewrite A4. apply Forall_app. split; [|assumption].
    eapply Forall_impl; [|exact A5]. simpl. lia.
  - lia.
  - intros i H1 H2. apply A8; [exact H1|lia].
Qed.
Lemma P_write v : P 1 (write_out v).
Proof.
  intros s Hs. pose proof (W_write v s) as H1. pose proof (WE_write v s) as H2. pose proof (Q_write v s) as H3.
  destruct (write_out v s); auto. destruct H3 as (A1 & A2 & A3 & A4 & A5). apply wrote_put; auto. left. apply H2.
Qed.
Lemma P_write_all l : P (zlen l) (write_all l).
Proof.
  induction l as [|v l IH]; [apply P_ret|]. cbn [write_all]. rewrite zlen_cons. replace (zlen l + 1) with (1 + zlen l) by lia. apply P_bind; [apply P_write|intros _; exact IH].
Qed.
Lemma P_arg C v t z o : P (Z.of_nat (slot t)) (write_arg C v t z o).
Proof.
  intros s Hs. pose proof (W_arg C v t z o s) as H1. pose proof (Q_arg C v t z o s) as H3.
  assert (D : (t <> ARG_RST \/ rst_ok v = true) \/ (t = ARG_RST /\ rst_ok v = false)).
  { destruct t; try (left; left; discriminate). destruct (rst_ok v); auto. }
  destruct D as [D|(-> & D)].
  - pose proof (WE_arg C v t z o D s) as H2. destruct (write_arg C v t z o s); auto.
    destruct H3 as (A1 & A2 & A3 & A4 & A5). apply wrote_put; auto. left. apply H2.
  - cbn [write_arg slot] in *. rewrite D in *. simpl.
    apply wrote_put; [exact Hs|exact H1|reflexivity|reflexivity|reflexivity|simpl; lia|reflexivity|].
    right. unfold grew. simpl. lia.
Qed.

(** * Closing a session *)
Lemma ecore_close s s1 e : ecore s1 = ecore (set_sess (s_sess s + 1) s) ->
  ecore (set_sess (s_sess s1 - 1) (set_errs e s1)) = ecore s.
Proof.
  intros H. transitivity (set_sess (s_sess s1 - 1) (ecore s1)); [reflexivity|]. rewrite H.
  rewrite (ecore_sess _ _ H). simpl. replace (s_sess s + 1 - 1) with (s_sess s) by lia. destruct s; reflexivity.
Qed.
Lemma put_keep C f k s s1 : inv s -> put k (set_sess (s_sess s + 1) s) s1 ->
  exists s2, (replay_session C (s_sess s + 1) f ;;; end_session (s_sess s + 1)) s1 = Ok tt s2 /\ put k s s2.
Proof.
  intros Hs H. pose proof (iv_sess _ Hs). rewrite (bind_ok _ _ _ _ _ (replay_nested C (s_sess s + 1) f s1 ltac:(lia))).
  rewrite end_nested by lia. eexists. split; [reflexivity|].
  destruct H as [H1 H2 H3 (new & H4 & H5) H6 H7 H8 H9 H10 H11]. simpl in *.
  set (e := unlead (s_sess s + 1) (replay_up (s_sess s + 1) (s_errs s1))).
  assert (U : e = map (to_sess (s_sess s)) new ++ s_errs s).
  { unfold e. rewrite H4, (replay_new (s_sess s + 1)); [|exact H5|eapply Forall_impl; [|apply (iv_errs _ Hs)]; simpl; lia].
    replace (s_sess s + 1 - 1) with (s_sess s) by lia.
    apply (unlead_new (s_sess s + 1) [] (map (to_sess (s_sess s)) new ++ s_errs s)); [constructor|]. apply Forall_app. split.
    - apply Forall_map. apply Forall_forall. intros x _. simpl. lia.
    - eapply Forall_impl; [|apply (iv_errs _ Hs)]. simpl; lia. }
  clearbody e. subst e.
  split; [exact (ecore_close s s1 _ H1)|exact H2|exact H3| |exact H6|exact H7| | |exact H10|exact H11].
  - eexists. split; [reflexivity|]. apply Forall_map. eapply Forall_impl; [|exact H5]. simpl. tauto.
  - pose proof (ecore_sess _ _ H1) as K. simpl in K. destruct H8. split; simpl; auto; [lia|]. rewrite K.
    replace (s_sess s + 1 - 1) with (s_sess s) by lia. apply Forall_app. split; [|apply Hs].
    apply Forall_map. apply Forall_forall. intros x _. simpl. lia.
  - destruct H9 as [H9|H9]; [left; exact H9|right]. unfold grew in *. simpl in *. rewrite H4 in H9. rewrite !app_length, map_length in *. lia.
Qed.
Lemma put_drop k j s s1 : inv s -> put j (set_sess (s_sess s + 1) s) s1 -> s_pos s1 = s_pos s + k ->
  exists s2, end_session (s_sess s + 1) s1 = Ok tt s2 /\ put k s s2.
Proof.
  intros Hs H Hk. pose proof (iv_sess _ Hs). rewrite end_nested by lia. eexists. split; [reflexivity|].
  destruct H as [H1 H2 H3 (new & H4 & H5) H6 H7 H8 _ H10 H11]. simpl in *.
  assert (U : unlead (s_sess s + 1) (s_errs s1) = s_errs s).
  { rewrite H4. apply unlead_new; [exact H5|]. eapply Forall_impl; [|apply (iv_errs _ Hs)]. simpl; lia. }
  split; [exact (ecore_close s s1 _ H1)|exact H2|exact H3| |exact H6|exact H7| |left; exact Hk|exact H10|exact H11].
  - exists []. split; [exact U|constructor].
  - pose proof (ecore_sess _ _ H1) as K. simpl in K. destruct H8. split; simpl; auto; [lia|]. rewrite U, K.
    replace (s_sess s + 1 - 1) with (s_sess s) by lia. apply Hs.
Qed.

Section Instr.
Variable C : cfg.
Variable R : fns.
Hypothesis HR : evfns R.

Lemma P_add expr t sz o : clean expr -> P (Z.of_nat (slot t)) (add_pass_two_expr C R expr t sz o).
Proof.
  intros He s Hs. unfold add_pass_two_expr. rewrite start_is. set (s0 := set_sess (s_sess s + 1) s).
  pose proof (EV_parse_num R (vf_full _ HR) expr He s0 (inv_start s Hs)) as K. unfold bind at 1.
  destruct (parse_num R expr s0) as [r s1|? ?|?|]; auto. destruct K as (K1 & K2 & _ & K4). rewrite bind_get.
  pose proof (ev_put _ _ K1 K2) as P1.
  destruct r as [v|].
  - rewrite bind_assoc. unfold bind at 1. pose proof (P_arg C v t sz o s1 K2) as W1. destruct (write_arg C v t sz o s1) as [u s2|? ?|?|]; auto.
    destruct (put_keep C false (Z.of_nat (slot t)) s s2 Hs) as (s3 & E & Hp); [exact (put_trans _ _ _ _ _ P1 W1)|].
    rewrite E. exact Hp.
  - specialize (K4 eq_refl). destruct (sess_fatal (s_sess s + 1) (s_errs s1)).
    + destruct (put_keep C false (Z.of_nat (slot t)) s s1 Hs) as (s3 & E & Hp).
      * destruct P1. split; auto.
      * rewrite E. exact Hp.
    + rewrite !bind_assoc, bind_get, !bind_assoc, bind_get. unfold get_curr_reusable. rewrite !bind_assoc, bind_get, bind_ret.
      rewrite !bind_assoc, bind_get, !bind_assoc, bind_get. unfold expand_expr. rewrite !bind_assoc. unfold bind at 1.
      pose proof (vf_expand _ HR 0 expr true He s1 K2) as X. destruct (f_expand R 0 expr true s1) as [e s2|? ?|?|]; auto.
      destruct X as (X1 & X2 & _ & _). pose proof (ev_put _ _ X1 X2) as P2.
      rewrite !bind_assoc, bind_get, !bind_assoc, bind_upd. set (s3 := set_exprs _ s2).
      assert (P3 : put 0 s2 s3).
      { split; simpl; auto using tlike_refl, alike_refl; try lia; [exists []; split; [reflexivity|constructor]| ].
        destruct X2; split; assumption. }
      set (t' := match t with ARG_ADDR_OFFSET => ARG_NUM_8 | _ => t end).
      assert (Sl : slot t' = slot t) by (destruct t; reflexivity).
      assert (T : t' <> ARG_RST \/ rst_ok 0 = true) by (right; reflexivity).
      pose proof (WE_arg C 0 t' sz 0 T s3) as G. pose proof (P_arg C 0 t' sz 0 s3 (pt_inv _ _ _ P3)) as P4. unfold bind at 1.
      destruct (write_arg C 0 t' sz 0 s3) as [u s4|? ?|?|]; auto. destruct G as (_ & G2 & _). rewrite Sl in G2.
      pose proof (put_trans _ _ _ _ _ P1 (put_trans _ _ _ _ _ P2 (put_trans _ _ _ _ _ P3 P4))) as P5.
      assert (Ps : s_pos s4 = s_pos s + Z.of_nat (slot t)).
      { rewrite G2. simpl. rewrite (f_equal s_pos (ev_core _ _ X1) : s_pos s2 = s_pos s1), (f_equal s_pos (ev_core _ _ K1) : s_pos s1 = s_pos s0).
        reflexivity. }
      destruct (put_drop _ _ s s4 Hs P5 Ps) as (s5 & E & Hp). rewrite E. exact Hp.
Qed.
Lemma P_error k c : c <> 0 -> P k (set_error c).
Proof.
  intros Hc s Hs. pose proof (EV_problem false c Hc s Hs) as K. unfold set_error. destruct (set_problem false c s) as [u s'|? ?|?|]; auto.
  destruct K as (K1 & K2 & _ & K4). destruct (ev_put _ _ K1 K2). split; auto.
Qed.

(** The operands of an instruction. *)
Definition longs (pat : text) : Z := fold_right (fun c n => (if c =? 42 then 1 else 0) + n) 0 pat.
Definition il (suffix : Z) : bool := (0 <=? suffix) && truth (Z.land suffix SUFFIX_IL).
Lemma P_operands : forall pat args suffix size bit, Forall (fun a => clean (seg (fst a) (snd a))) args -> oclean bit ->
  forall s, inv s ->
  match write_operands C R pat args suffix size bit s with
  | Ok r s' => put (operands_width (il suffix) pat) s s' /\ fst r = size + (if il suffix then longs pat else 0) /\
      oclean (snd r)
  | Exit _ _ => False
  | _ => True
  end.
Proof.
  induction pat as [|c pat IH]; intros args suffix size bit Ha Hb s Hs.
  - simpl. split; [pose proof (P_ret tt s Hs) as K; exact K|]. split; [destruct (il suffix); lia|exact Hb].
  - assert (Step : forall args' size' bit' k (m : M unit) j, P k m -> Forall (fun a => clean (seg (fst a) (snd a))) args' -> oclean bit' ->
      k + operands_width (il suffix) pat = operands_width (il suffix) (c :: pat) ->
      size' + (if il suffix then longs pat else 0) = size + (if il suffix then longs (c :: pat) else 0) ->
      forall s1, inv s1 -> j = 0 -> put j s s1 ->
      match (m ;;; write_operands C R pat args' suffix size' bit') s1 with
      | Ok r s' => put (operands_width (il suffix) (c :: pat)) s s' /\ fst r = size + (if il suffix then longs (c :: pat) else 0) /\ oclean (snd r)
      | Exit _ _ => False
      | _ => True
      end).
    { intros args' size' bit' k m j Hm Ha' Hb' E1 E2 s1 Hs1 Hj Hp. unfold bind. specialize (Hm s1 Hs1). destruct (m s1) as [u s2|? ?|?|]; auto.
      specialize (IH args' suffix size' bit' Ha' Hb' s2 (pt_inv _ _ _ Hm)).
      destruct (write_operands C R pat args' suffix size' bit' s2) as [r s3|? ?|?|]; auto. destruct IH as (I1 & I2 & I3).
      subst j. split; [|split; [rewrite I2; exact E2|exact I3]]. rewrite <- E1. replace (k + operands_width (il suffix) pat) with (0 + (k + operands_width (il suffix) pat)) by lia.
      eapply put_trans; [exact Hp|]. eapply put_trans; eauto. }
    assert (P0 : put 0 s s) by (pose proof (P_ret tt s Hs) as K; exact K).
    cbn [write_operands]. destruct (is_arg c) eqn:A.
    2:{ specialize (Step args size bit 0 (ret tt) 0 (P_ret tt) Ha Hb). unfold is_arg in A.
        rewrite <- (bind_ret tt (fun _ => write_operands C R pat args suffix size bit) s). apply Step; auto.
        - change (operands_width (il suffix) (c :: pat)) with (operand_width (il suffix) c + operands_width (il suffix) pat).
          unfold operand_width. change (ch "*") with 42. change (ch "&") with 38. change (ch "%") with 37. change (ch "@") with 64. change (ch "#") with 35.
          replace (c =? 42) with false by lia. replace ((c =? 38) || (c =? 37) || (c =? 64) || (c =? 35)) with false by lia. lia.
        - change (longs (c :: pat)) with ((if c =? 42 then 1 else 0) + longs pat). replace (c =? 42) with false by lia. destruct (il suffix); lia. }
    destruct args as [|[a e] args']; [exact I|]. inversion Ha as [|? ? Hx Ha']; subst. cbn [fst snd] in Hx. set (t := seg a e) in *. cbv zeta.
    unfold bind at 1. pose proof (P_when 0 (extra_parens t) show_warning (EV_P _ _ _ (EV_raise _)) s Hs) as K.
    destruct (whenM (extra_parens t) show_warning s) as [u s1|? ?|?|]; auto.
    assert (P1 : put 0 s s1) by (destruct (extra_parens t); exact K). clear K.
    pose proof (pt_inv _ _ _ P1) as Hs1.
    assert (Wd : operands_width (il suffix) (c :: pat) = operand_width (il suffix) c + operands_width (il suffix) pat) by reflexivity.
    assert (Ld : longs (c :: pat) = (if c =? 42 then 1 else 0) + longs pat) by reflexivity.
    unfold operand_width in Wd. change (ch "*") with 42 in Wd. change (ch "&") with 38 in Wd. change (ch "%") with 37 in Wd.
    change (ch "@") with 64 in Wd. change (ch "#") with 35 in Wd.
    destruct (Z.eqb_spec c 42) as [->|N1].
    { fold (il suffix). destruct (il suffix) eqn:IL.
      - eapply (Step args' (size + 1) bit 3); eauto; try lia. now apply P_add.
      - eapply (Step args' size bit 2); eauto; try lia. now apply P_add. }
    destruct (Z.eqb_spec c 38) as [->|N2].
    { eapply (Step args' size bit 1); eauto; try (rewrite Wd; reflexivity); try (rewrite Ld; destruct (il suffix); simpl; lia). now apply P_add. }
    destruct (Z.eqb_spec c 37) as [->|N3].
    { eapply (Step args' size bit 1); eauto; try (rewrite Wd; reflexivity); try (rewrite Ld; destruct (il suffix); simpl; lia). now apply P_add. }
    destruct (Z.eqb_spec c 64) as [->|N4].
    { eapply (Step args' size bit 1); eauto; try (rewrite Wd; reflexivity); try (rewrite Ld; destruct (il suffix); simpl; lia).
      destruct t as [|x t0]; [apply (P_add _ ARG_IX_IY_OFFSET); repeat constructor; discriminate|].
      destruct ((x =? 43) || (x =? 45)); [apply (P_add _ ARG_IX_IY_OFFSET); constructor; [discriminate|exact Hx]|now apply P_error]. }
    destruct (Z.eqb_spec c 94) as [->|N5].
    { specialize (Step args' size (Some t) 0 (ret tt) 0 (P_ret tt) Ha' Hx).
      rewrite <- (bind_ret tt (fun _ => write_operands C R pat args' suffix size (Some t)) s1). eapply Step; eauto; try (rewrite Wd; reflexivity); try (rewrite Ld; destruct (il suffix); simpl; lia). }
    unfold is_arg in A. assert (c = 35) by lia. subst c.
    eapply (Step args' size bit 1); eauto; try (rewrite Wd; reflexivity); try (rewrite Ld; destruct (il suffix); simpl; lia). now apply P_add.
Qed.

(** The bytes of a whole instruction and the size returned, for any row. *)
Definition body_width (i : instr) (long : bool) : Z :=
  zlen (firstn (Z.to_nat (i_size0 i)) (i_data i)) + operands_width long (i_args i) + (if i_has_end i then 1 else 0).
Definition mode_of (adl : bool) (suffix : Z) : Z :=
  if 0 <=? suffix then suffix else if c_ez80 C then (if adl then Z.lor SUFFIX_L SUFFIX_IL else 0) else suffix.
Lemma P_instruction i args suffix s : c_normal C = true -> inv s -> Forall (fun a => clean (seg (fst a) (snd a))) args ->
  match write_instruction_data C R i args suffix s with
  | Ok size s' =>
      let long := il (mode_of (s_adl s) suffix) in
      put ((if 0 <=? suffix then 1 else 0) + body_width i long) s s' /\
      size = (if 0 <=? suffix then 1 else 0) + i_size i + (if long then longs (i_args i) else 0)
  | Exit _ _ => False
  | _ => True
  end.
Proof.
  intros Hn Hs Ha. unfold write_instruction_data. rewrite bind_get. cbv zeta. fold (mode_of (s_adl s) suffix). set (md := mode_of (s_adl s) suffix).
  rewrite Hn. change (true || c_list C) with true. unfold bind at 1. pose proof (P_when 1 (0 <=? suffix) (write_out (64 + suffix * 9)) (P_write _) s Hs) as K1.
  destruct (whenM (0 <=? suffix) _ s) as [u s1|? ?|?|]; auto. unfold bind at 1. cbn [whenM].
  pose proof (P_write_all (rev (firstn (Z.to_nat (i_size0 i)) (i_data i))) s1 (pt_inv _ _ _ K1)) as K2.
  destruct (write_all _ s1) as [u2 s2|? ?|?|]; auto. unfold bind at 1.
  pose proof (P_operands (i_args i) args md (if 0 <=? suffix then i_size i + 1 else i_size i) None Ha I s2 (pt_inv _ _ _ K2)) as K3.
  destruct (write_operands C R (i_args i) args md _ None s2) as [[sz bit] s3|? ?|?|]; auto. destruct K3 as (K3 & K4 & K5). cbn [fst snd] in *.
  rewrite andb_true_r. unfold bind at 1.
  assert (K6 : match whenM (i_has_end i) (match bit with Some t => add_pass_two_expr C R t ARG_BIT_NUM sz (i_end i) | None => write_out (i_end i) end) s3 with
    | Ok _ s' => put (if i_has_end i then 1 else 0) s3 s' | Exit _ _ => False | _ => True end).
  { apply (P_when 1); [|exact (pt_inv _ _ _ K3)]. destruct bit as [t|]; [apply (P_add t ARG_BIT_NUM); exact K5|apply P_write]. }
  destruct (whenM (i_has_end i) _ s3) as [u4 s4|? ?|?|]; auto. cbn [ret]. split.
  - unfold body_width. unfold zlen in K2 |- *. rewrite rev_length in K2.
    pose proof (put_trans _ _ _ _ _ K1 (put_trans _ _ _ _ _ K2 (put_trans _ _ _ _ _ K3 K6))) as K. cbn beta in K.
    match goal with |- put ?a _ _ => match type of K with put ?b _ _ => replace a with b by lia end end. exact K.
  - rewrite K4. destruct (0 <=? suffix); lia.
Qed.
End Instr.

(** * Matching the operands leaves the state alone *)
Definition args_clean (l : list (text * text)) : Prop := Forall (fun a => clean (fst a)) l.
Lemma EV_match_pattern base : clean base -> forall pat p args, clean p -> args_clean args ->
  EV (fun r => clean (snd (fst r)) /\ args_clean (snd r)) never (match_pattern base pat p args).
Proof.
  intros Hb. induction pat as [|c pat IH]; intros p args Hp Ha; cbn [match_pattern]; [now evr|].
  dif; [now evr|]. cbv zeta. dif.
  - dif; [now evr|]. dif; [apply EV_undef|]. eapply EV_bind; [apply EV_read_expr; exact Hp|]. intros r (H1 & H2).
    eapply EV_weak; [apply IH|auto|discriminate].
    + destruct (negb _ || negb _); [apply clean_skip_ws|]; destruct (_ =? 44); auto using clean_back1.
    + apply Forall_app. split; [exact Ha|]. constructor; [exact Hp|constructor].
  - dif; [|now evr]. apply IH; [|exact Ha]. destruct (negb _ || negb _); [apply clean_skip_ws|]; now apply clean_tl.
Qed.
Definition found (l : list instr) (r : text * option (instr * list (text * text))) : Prop :=
  clean (fst r) /\ match snd r with Some (i, args) => In i l /\ args_clean args | None => True end.
Lemma EV_match_instrs base p : clean base -> clean p -> forall l last, clean last ->
  EV (found l) never (match_instrs base p last l).
Proof.
  intros Hb Hp. induction l as [|i l IH]; intros last Hl; cbn [match_instrs]; [evr|].
  unfold match_instr. eapply EV_bind with (F1 := never) (Q1 := fun r => clean (fst r) /\ match snd r with Some a => args_clean a | None => True end).
  - eapply EV_bind; [apply EV_match_pattern; auto; constructor|]. intros [[pat q] args] (H1 & H2). cbn [fst snd] in *.
    eapply EV_bind with (F1 := never) (Q1 := fun r => args_clean (snd r)).
    + dif; [|evr]. dif; [apply EV_undef|]. evr. apply Forall_app. split; [exact H2|]. constructor; [exact H1|constructor].
    + intros [pat' args'] H3. evr. cbn [fst snd] in *. split; [exact H1|]. destruct pat'; [destruct (is_eol q); auto|exact I].
  - intros [q r] (H1 & H2). cbn [fst snd] in *. destruct r as [args|].
    + evr. split; [exact H1|]. split; [now left|exact H2].
    + eapply EV_weak; [apply IH; exact H1| |discriminate]. intros [q' [[i' a']|]] (G1 & G2); split; auto. split; [right|]; apply G2.
Qed.
Definition lost (r : text * option (instr * list (text * text))) : bool := match snd r with Some _ => false | None => true end.
Lemma EV_match_opcode base p : clean base -> clean p -> forall ops,
  EV (found (concat (map op_instrs ops))) lost (match_opcode_args base p ops).
Proof.
  intros Hb Hp. induction ops as [|o ops IH]; cbn [match_opcode_args]; [apply EV_undef|].
  eapply EV_bind with (F1 := never); [now apply EV_match_instrs|]. intros [q r] (H1 & H2). cbn [fst snd] in *.
  assert (Er : EV (found (concat (map op_instrs (o :: ops)))) lost (set_error SPASM_ERR_INVALID_OPERANDS ;;; ret (q, None))).
  { eapply EV_bind with (F1 := always) (Q1 := any); [now apply EV_problem|]. intros ? _. apply EV_ret; [split; [exact H1|exact I]|reflexivity]. }
  destruct r as [[i args]|].
  - evr. split; [exact H1|]. cbn [snd]. split; [|apply H2]. cbn [map concat]. apply in_or_app. left. apply H2.
  - eapply EV_weak with (F1 := lost) (Q1 := found (concat (map op_instrs (o :: ops)))); [|auto|wk].
    destruct ops as [|o' ops]; [exact Er|]. dif; [|exact Er].
    eapply EV_weak; [exact IH| |auto]. intros [q' [[i' a']|]] (G1 & G2); split; auto. cbn [snd] in *. split; [|apply G2].
    cbn [map concat]. apply in_or_app. right. apply G2.
Qed.

(** An instruction advances the address counter by what it emits. *)
Definition row_ok (i : instr) : Prop := i_size i = body_width i false.
Lemma body_long i : row_ok i -> body_width i true = i_size i + longs (i_args i).
Proof.
  unfold row_ok, body_width. intros ->.
  enough (operands_width true (i_args i) = operands_width false (i_args i) + longs (i_args i)) by lia.
  induction (i_args i) as [|c l IH]; [reflexivity|]. cbn [operands_width longs fold_right].
  change (fold_right _ 0 l) with (operands_width true l) at 1. fold (longs l). 
  change (fold_right (fun c n => operand_width false c + n) 0 l) with (operands_width false l).
  rewrite IH. unfold operand_width. change (ch "*") with 42. destruct (c =? 42); lia.
Qed.
(** What one instruction does to the state: [k] bytes are emitted and the counter moves by [k]. *)
Definition stats0 (s : st) : st := set_pc 0 (set_codesize 0 (set_mintime 0 (set_maxtime 0 s))).
Lemma handle_opcode_counts C n base p ops suffix s :
  c_normal C = true -> inv s -> clean base -> clean p -> Forall (fun o => Forall row_ok (op_instrs o)) ops ->
  match handle_opcode C (knot C n) base p ops suffix s with
  | Ok _ s' => (exists k, 0 <= k /\ s_pos s' = s_pos s + k /\ s_pc s' = u32 (s_pc s + k)) \/ grew s s'
  | Exit _ _ => False
  | _ => True
  end.
Proof.
  intros Hn Hs Hb Hp Ho. unfold handle_opcode. unfold bind at 1.
  pose proof (EV_match_opcode base (skip_ws p) Hb (clean_skip_ws _ Hp) ops s Hs) as K.
  destruct (match_opcode_args base (skip_ws p) ops s) as [[q r] s1|? ?|?|]; auto. destruct K as (K1 & K2 & (K3 & K4) & K5).
  cbn [fst snd] in *. destruct r as [[i args]|]; [|right; apply K5; reflexivity]. destruct K4 as (K6 & K7).
  assert (Hi : row_ok i).
  { apply in_concat in K6. destruct K6 as (l & L1 & L2). apply in_map_iff in L1. destruct L1 as (o & <- & L3).
    rewrite Forall_forall in Ho. specialize (Ho o L3). rewrite Forall_forall in Ho. auto. }
  assert (Ha : Forall (fun a => clean (seg (fst a) (snd a))) args) by (eapply Forall_impl; [|exact K7]; simpl; intros; now apply clean_seg).
  pose proof (P_instruction C (knot C n) (knot_ev C n) i args suffix s1 Hn K2 Ha) as K. unfold bind at 1.
  destruct (write_instruction_data C (knot C n) i args suffix s1) as [size s2|? ?|?|]; auto. cbv zeta in K. destruct K as (J1 & J2).
  unfold add_pc, add_stats. cbn.
  assert (E1 : s_pos s1 = s_pos s) by exact (f_equal s_pos (ev_core _ _ K1)).
  assert (E2 : s_pc s2 = s_pc s).
  { transitivity (s_pc s1); [exact (f_equal s_pc (pt_core _ _ _ J1))|exact (f_equal s_pc (ev_core _ _ K1))]. }
  destruct (pt_pos _ _ _ J1) as [J3|J3].
  - left. exists size. set (long := il (mode_of C (s_adl s1) suffix)) in *.
    assert (Sz : size = (if 0 <=? suffix then 1 else 0) + body_width i long).
    { rewrite J2. destruct long; [rewrite (body_long i Hi)|rewrite <- Hi]; lia. }
    pose proof (pt_up _ _ _ J1). rewrite E1, <- Sz in J3. rewrite E2. repeat split; lia.
  - right. unfold grew in *. simpl. pose proof (ev_errs _ _ K1) as (nw & E & _). rewrite E, app_length in J3. lia.
Qed.
