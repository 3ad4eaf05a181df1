(** Evaluating an expression leaves the assembler as it was, apart from the problems recorded:
    for texts and defines without '#', so that no preprocessor line is run on the way. *)
From Verif Require Import Base BaseProofs State UtilsModel ErrorsModel StorageModel ParserModel PassTwoModel
  PreopModel PassOneModel DirectiveModel Knot MonadProofs UtilsSpec UtilsProofs StorageSpec StorageProofs ParserSpec ParserProofs EvalSpec.

(** * Texts without '#' *)

Lemma clean_app a b : clean a -> clean b -> clean (a ++ b).
Proof. unfold clean. intros. apply Forall_app. auto. Qed.
Lemma clean_app_l a b : clean (a ++ b) -> clean a.
Proof. unfold clean. rewrite Forall_app. tauto. Qed.
Lemma clean_app_r a b : clean (a ++ b) -> clean b.
Proof. unfold clean. rewrite Forall_app. tauto. Qed.
Lemma clean_tl p : clean p -> clean (tl p).
Proof. destruct 1; [constructor|assumption]. Qed.
Lemma clean_hd p : clean p -> hd0 p <> 35.
Proof. destruct 1; [discriminate|assumption]. Qed.
Lemma clean_firstn n p : clean p -> clean (firstn n p).
Proof. revert n. induction p as [|c p IH]; intros [|n] H; simpl; try constructor; inversion H; subst; auto. apply IH; auto. Qed.
Lemma clean_skipn n p : clean p -> clean (skipn n p).
Proof. intros H. rewrite <- (firstn_skipn n p) in H. now apply clean_app_r in H. Qed.
Lemma clean_seg a b : clean a -> clean (seg a b).
Proof. intros H. unfold seg. destruct (Nat.leb _ _); auto using clean_firstn. Qed.
Lemma clean_rev p : clean p -> clean (rev p).
Proof. apply Forall_rev. Qed.
Lemma clean_rtrim p : clean p -> clean (rtrim p).
Proof. induction 1; simpl; [constructor|]. destruct (isspace x); auto. constructor; auto. Qed.
Lemma clean_skip_ws p : clean p -> clean (skip_ws p).
Proof. induction 1; simpl; [constructor|]. destruct (is_blank x); auto. constructor; auto. Qed.
Lemma clean_name_end p : clean p -> clean (skip_to_name_end p).
Proof. induction 1; simpl; [constructor|]. destruct (is_name_char x); auto. constructor; auto. Qed.
Lemma clean_skip_alnum p : clean p -> clean (skip_alnum p).
Proof. induction 1; simpl; [constructor|]. destruct (isalnum x); auto. constructor; auto. Qed.
Lemma clean_last_alnum p : clean p -> clean (last_alnum p).
Proof.
  induction p as [|c p IH]; intros H; [constructor|]. cbn [last_alnum]. destruct p as [|d p]; [assumption|].
  destruct (isalnum d); [|assumption]. apply IH. now inversion H.
Qed.
Lemma clean_count_plus p : forall n, clean p -> clean (fst (count_plus p n)).
Proof. induction p; intros n H; simpl; [constructor|]. destruct (a =? 43); auto. inversion H; auto. Qed.
Lemma clean_count_minus p : forall n, clean p -> clean (fst (count_minus p n)).
Proof. induction p; intros n H; simpl; [constructor|]. destruct ((a =? 45) && _); auto. inversion H; auto. Qed.
Lemma clean_line_break p : clean p -> clean (to_line_break p).
Proof. induction 1; simpl; [constructor|]. destruct ((x =? 10) || (x =? 13)); auto. constructor; auto. Qed.
Lemma clean_skip_cr p : clean p -> clean (skip_cr p).
Proof. destruct 1; simpl; [constructor|]. destruct (x =? 13); auto. constructor; auto. Qed.
Lemma clean_skip_lf p : clean p -> clean (skip_lf p).
Proof. destruct 1; simpl; [constructor|]. destruct (x =? 10); auto. constructor; auto. Qed.
Lemma clean_next_line p : clean p -> clean (skip_to_next_line p).
Proof. intros. unfold skip_to_next_line. auto using clean_skip_lf, clean_skip_cr, clean_line_break. Qed.
Lemma clean_next_expr_loop delims : forall fuel z p2 p1 p q, clean p2 -> clean p1 -> clean p ->
  next_expr_loop fuel delims z p2 p1 p = Some q -> clean q.
Proof.
  induction fuel as [|f IH]; intros z p2 p1 p q H2 H1 H; [discriminate|]. cbn [next_expr_loop].
  destruct p as [|c p]; [intros E; injection E as <-; constructor|].
  destruct (_ && _); [intros E; injection E as <-; assumption|].
  destruct (scan_step c z) as [z' back]. destruct back; apply IH; auto. now inversion H.
Qed.
Lemma clean_next_expr p d : clean p -> clean (next_expr p d).
Proof.
  intros H. apply clean_skip_ws in H. unfold next_expr. destruct (_ || _); [assumption|].
  destruct (next_expr_loop _ _ _ _ _ _) eqn:E; [|assumption]. eapply clean_next_expr_loop in E; eauto.
Qed.
Lemma clean_next_code_line p : clean p -> clean (next_code_line p).
Proof.
  intros H. unfold next_code_line. apply (clean_next_expr _ [92; 59; 13; 10]) in H.
  destruct (_ =? 59); [now apply clean_next_line|]. apply clean_skip_lf, clean_skip_cr. destruct (_ =? 92); auto using clean_tl.
Qed.
Lemma clean_read_loop buf delims : forall fuel z level w p2 p1 p r, clean w -> clean p2 -> clean p1 -> clean p ->
  read_expr_loop fuel buf delims z level w p2 p1 p = Some r -> clean (rx_ptr r) /\ clean (rx_word r).
Proof.
  induction fuel as [|f IH]; intros z level w p2 p1 p r Hw H2 H1 H; [discriminate|]. cbn [read_expr_loop].
  assert (W : clean (rev (rtrim w))) by auto using clean_rev, clean_rtrim.
  destruct p as [|c p]; [intros E; injection E as <-; split; [constructor|assumption]|].
  match goal with |- (if ?b then _ else _) = _ -> _ => destruct b; [intros E; injection E as <-; auto|] end.
  cbv zeta.
  match goal with |- (if ?b then _ else _) = _ -> _ => destruct b; [intros E; injection E as <-; auto|] end.
  destruct (scan_step c z) as [z' back0]. set (back := back0 && _).
  assert (W' : clean (if back && buf then tl (tl w) else w)) by (destruct (back && buf); auto using clean_tl).
  assert (Hc : c <> 35) by now inversion H.
  match goal with |- (if ?b then _ else _) = _ -> _ => destruct b end.
  { intros E; injection E as <-. simpl. split; [destruct back; auto|]. constructor; [discriminate|constructor]. }
  destruct back.
  - apply IH; auto. destruct buf; auto. constructor; auto using clean_hd.
  - apply IH; auto; [destruct buf; auto; now constructor|now inversion H].
Qed.
Lemma clean_read_gen buf p d : clean p -> clean (rx_ptr (read_expr_gen buf p d)) /\ clean (rx_word (read_expr_gen buf p d)).
Proof.
  intros H. apply clean_skip_ws in H. unfold read_expr_gen.
  destruct (_ || _); [simpl; split; [assumption|constructor]|].
  destruct (read_expr_loop _ _ _ _ _ _ _ _ _) eqn:E; [|simpl; split; [assumption|constructor]].
  eapply clean_read_loop in E; eauto. constructor.
Qed.
Lemma clean_dec_fuel : forall f n l, clean l -> clean (dec_fuel f n l).
Proof.
  induction f as [|f IH]; intros n l H; cbn [dec_fuel]; [assumption|].
  assert (K : clean (48 + n mod 10 :: l)) by (constructor; [lia|assumption]). destruct (_ =? 0); auto.
Qed.
Lemma clean_dec n : clean (dec n).
Proof. unfold dec, decmin. destruct (n <? 0); [constructor; [discriminate|]|]; apply clean_dec_fuel; constructor. Qed.
Lemma clean_hex_fuel : forall f n l, clean l -> clean (hex_fuel f n l).
Proof.
  induction f as [|f IH]; intros n l H; cbn [hex_fuel]; [assumption|].
  assert (K : clean (hexdig (n mod 16) :: l)) by (constructor; [unfold hexdig; destruct (_ <? 10); lia|assumption]).
  destruct (_ =? 0); auto.
Qed.
Lemma clean_hexmin n : clean (hexmin n).
Proof. apply clean_hex_fuel. constructor. Qed.
Lemma clean_quote f : clean f -> clean (quote_file f).
Proof.
  intros H. constructor; [discriminate|]. apply clean_app; [|constructor; [discriminate|constructor]].
  induction H; simpl; [constructor|]. apply clean_app; auto. destruct (x =? 92); repeat constructor; auto; discriminate.
Qed.

(** * Define tables that differ in the contents of __LINE and __FILE only *)
Lemma dlike_refl e : dlike e e. Proof. repeat split; auto. Qed.
Lemma dlike_trans a b c : dlike a b -> dlike b c -> dlike a c.
Proof.
  intros (H1 & H2 & H3 & H4 & H5 & H6) (K1 & K2 & K3 & K4 & K5 & K6).
  split; [congruence|]. split; [congruence|]. split; [congruence|]. split; [congruence|]. split; [congruence|].
  rewrite H1 in K6. destruct H6; [|auto]. destruct K6; [|auto]. left. congruence.
Qed.
Lemma F2_refl {A} (r : A -> A -> Prop) (Hr : forall x, r x x) l : Forall2 r l l.
Proof. induction l; constructor; auto. Qed.
Lemma F2_trans {A} (r : A -> A -> Prop) (Ht : forall x y z, r x y -> r y z -> r x z) a : forall b c,
  Forall2 r a b -> Forall2 r b c -> Forall2 r a c.
Proof.
  induction a; intros b c H K; inversion H; subst; inversion K; subst; constructor; eauto.
Qed.
Lemma tlike_refl t : tlike t t. Proof. apply F2_refl, dlike_refl. Qed.
Lemma tlike_trans a b c : tlike a b -> tlike b c -> tlike a c.
Proof. apply F2_trans. apply dlike_trans. Qed.
Lemma alike_refl t : alike t t. Proof. apply F2_refl. intros; split; auto using tlike_refl. Qed.
Lemma alike_trans a b c : alike a b -> alike b c -> alike a c.
Proof. apply F2_trans. intros x y z (H1 & H2) (K1 & K2). split; [congruence|]. eapply tlike_trans; eauto. Qed.
Lemma tlike_find t t' k : tlike t t' ->
  match tfind k t with
  | Some d => exists d', tfind k t' = Some d' /\ dlike (k, d) (k, d')
  | None => tfind k t' = None
  end.
Proof.
  induction 1 as [|[k1 d1] [k2 d2] t t' H HF IH]; [reflexivity|]. simpl. pose proof H as (E & _). simpl in E. subst k2.
  destruct (eqbl k k1) eqn:E; [|exact IH]. exists d2. split; [reflexivity|]. apply eqbl_eq in E. subst k1. exact H.
Qed.

(** * Tables in order whose contents are without '#' *)
Lemma tok_find t k d : tok t -> tfind k t = Some d -> oclean (d_contents d).
Proof.
  intros (_ & H). induction H as [|[k1 d1] t Hx H IH]; [discriminate|]. simpl. destruct (eqbl k k1); [|exact IH].
  intros E. injection E as <-. exact Hx.
Qed.
Lemma tok_set t k d : tok t -> oclean (d_contents d) -> tok (tset k d t).
Proof.
  intros (H1 & H2) Hd. split; [now apply tset_ok|]. clear H1. induction H2 as [|[k1 d1] t Hx H IH]; simpl.
  - repeat constructor; assumption.
  - destruct (eqbl k k1); [constructor; auto|]. destruct (text_ltb k k1); repeat (constructor; auto).
Qed.
Lemma tset_same_like t k d c : table_ok t -> tfind k t = Some d -> special k ->
  tlike t (tset k (mkdefine (d_name d) (d_line d) (d_file d) c (d_args d)) t).
Proof.
  intros Ho Hf Hs. induction Ho as [|[k1 d1] t Ho IH Hlt]; [discriminate|]. simpl in *.
  destruct (eqbl k k1) eqn:E.
  - injection Hf as ->. constructor; [|apply tlike_refl]. apply eqbl_eq in E. subst k1. repeat split; simpl; auto.
  - assert (G : text_ltb k k1 = false).
    { destruct (text_ltb k k1) eqn:L; [|reflexivity]. exfalso.
      assert (In (k, d) t). { clear -Hf. induction t as [|[k2 d2] t IH]; [discriminate|]. simpl in Hf.
        destruct (eqbl k k2) eqn:E; [injection Hf as ->; apply eqbl_eq in E; subst; now left|right; auto]. }
      rewrite Forall_forall in Hlt. specialize (Hlt _ H). unfold key_lt in Hlt. simpl in Hlt.
      pose proof (text_ltb_trans _ _ _ L Hlt) as K. now rewrite text_ltb_irrefl in K. }
    rewrite G. constructor; [apply dlike_refl|]. now apply IH.
Qed.
Lemma atok_find a id t : atok a -> find_set id a = Some t -> tok t.
Proof.
  induction 1 as [|[i u] a H HF IH]; [discriminate|]. simpl. destruct (Nat.eqb i id); [|exact IH].
  intros E. injection E as <-. exact H.
Qed.
Lemma atok_put a id t : atok a -> tok t -> atok (put_set id t a).
Proof.
  intros H Ht. induction H as [|[i u] a H HF IH]; [constructor|]. simpl. destruct (Nat.eqb i id); constructor; auto.
Qed.
Lemma alike_put a id t t' : find_set id a = Some t -> tlike t t' -> alike a (put_set id t' a).
Proof.
  induction a as [|[i u] a IH]; [discriminate|]. simpl. destruct (Nat.eqb i id).
  - intros E H. injection E as <-. constructor; [split; [reflexivity|exact H]|apply alike_refl].
  - intros E H. constructor; [split; [reflexivity|apply tlike_refl]|]. now apply IH.
Qed.

(** * The effect of an evaluation *)

(** The state without the fields an evaluation may change. *)

Lemma core_sess s s' : core s' = core s -> s_sess s' = s_sess s.
Proof. intros H. exact (f_equal s_sess H). Qed.
Lemma core_line s s' : core s' = core s -> s_line s' = s_line s.
Proof. intros H. exact (f_equal s_line H). Qed.
Lemma core_file s s' : core s' = core s -> s_file s' = s_file s.
Proof. intros H. exact (f_equal s_file H). Qed.
Lemma ev_refl s : ev s s.
Proof. split; auto using tlike_refl, alike_refl; [|lia]. exists []. split; [reflexivity|constructor]. Qed.
Lemma ev_trans a b c : ev a b -> ev b c -> ev a c.
Proof.
  intros [H1 H2 H3 (n1 & H4 & H5) H6 H7] [K1 K2 K3 (n2 & K4 & K5) K6 K7]. split; try congruence; try lia; auto.
  - eapply tlike_trans; eauto.
  - eapply alike_trans; eauto.
  - exists (n2 ++ n1). split; [rewrite K4, H4; apply app_assoc|]. apply Forall_app. split; [|assumption].
    rewrite <- (core_sess _ _ H1). exact K5.
Qed.
Definition grew (s s' : st) : Prop := (length (s_errs s) < length (s_errs s'))%nat.
Lemma ev_length s s' : ev s s' -> (length (s_errs s) <= length (s_errs s'))%nat.
Proof. intros [_ _ _ (n & -> & _) _ _]. rewrite app_length. lia. Qed.

(** [EV Q F m]: from a state with the invariant [m] does not exit, changes only what an
    evaluation may, and its result is in [Q]; a result in [F] comes with a new problem. *)
Definition EV {A} (Q : A -> Prop) (F : A -> bool) (m : M A) : Prop := forall s, inv s ->
  match m s with
  | Ok a s' => ev s s' /\ inv s' /\ Q a /\ (F a = true -> grew s s')
  | Exit _ _ => False
  | _ => True
  end.
Definition never {A} (a : A) : bool := false.
Definition always {A} (a : A) : bool := true.
Definition any {A} (a : A) : Prop := True.

Lemma EV_bind {A B} (Q1 : A -> Prop) (F1 : A -> bool) (Q2 : B -> Prop) (F2 : B -> bool) m k :
  EV Q1 F1 m -> (forall a, Q1 a -> EV Q2 (fun b => F2 b && negb (F1 a)) (k a)) -> EV Q2 F2 (bind m k).
Proof.
  intros Hm Hk s Hs. unfold bind. specialize (Hm s Hs). destruct (m s) as [a s1|c s1|w|]; auto.
  destruct Hm as (H1 & H2 & H3 & H4). specialize (Hk a H3 s1 H2). destruct (k a s1) as [b s2|c s2|w|]; auto.
  destruct Hk as (K1 & K2 & K3 & K4). split; [eapply ev_trans; eauto|]. split; [exact K2|]. split; [exact K3|].
  intros E. rewrite E in K4. simpl in K4. pose proof (ev_length _ _ H1). pose proof (ev_length _ _ K1). unfold grew in *.
  destruct (F1 a); [specialize (H4 eq_refl); lia|]. specialize (K4 eq_refl). lia.
Qed.
Lemma EV_weak {A} (Q1 Q2 : A -> Prop) (F1 F2 : A -> bool) m :
  EV Q1 F1 m -> (forall a, Q1 a -> Q2 a) -> (forall a, F2 a = true -> F1 a = true) -> EV Q2 F2 m.
Proof. intros H HQ HF s Hs. specialize (H s Hs). destruct (m s); auto. intuition. Qed.
Lemma EV_after {A} s s2 (Q : A -> Prop) (m : M A) : ev s s2 -> inv s2 -> EV Q never m ->
  match m s2 with Ok a s' => ev s s' /\ inv s' /\ Q a /\ (never a = true -> grew s s') | Exit _ _ => False | _ => True end.
Proof.
  intros X1 X2 Hm. specialize (Hm s2 X2). destruct (m s2); auto. destruct Hm as (Y1 & Y2 & Y3 & _).
  split; [eapply ev_trans; eauto|]. split; [exact Y2|]. split; [exact Y3|discriminate].
Qed.
Lemma EV_ret {A} (Q : A -> Prop) F (a : A) : Q a -> F a = false -> EV Q F (ret a).
Proof. intros Hq Hf s Hs. simpl. rewrite Hf. split; [apply ev_refl|]. split; [exact Hs|]. split; [exact Hq|discriminate]. Qed.
Lemma EV_get {A} (f : st -> A) : EV any never (get f).
Proof. intros s Hs. simpl. split; [apply ev_refl|]. split; [exact Hs|]. split; [exact I|discriminate]. Qed.
Lemma EV_undef {A} (Q : A -> Prop) F w : EV Q F (undef w).
Proof. intros s Hs. exact I. Qed.
Lemma EV_nofuel {A} (Q : A -> Prop) F : EV Q F nofuel.
Proof. intros s Hs. exact I. Qed.
Lemma EV_problem w c : c <> 0 -> EV any always (set_problem w c).
Proof.
  intros Hc s Hs. simpl. split; [|split; [|split; [exact I|intros _; unfold grew; simpl; lia]]].
  - split; simpl; auto using tlike_refl, alike_refl; [|lia]. exists [mkerr c (s_sess s) w (s_line s) (s_file s)].
    split; [reflexivity|]. constructor; [simpl; auto|constructor].
  - destruct Hs. split; simpl; auto. constructor; [simpl; lia|assumption].
Qed.
Lemma EV_raise n : EV any never (raise_exit n).
Proof.
  intros s Hs. simpl. split; [|split; [destruct Hs; split; assumption|split; [exact I|discriminate]]].
  split; simpl; auto using tlike_refl, alike_refl.
  - exists []. split; [reflexivity|constructor].
  - destruct (s_exitc s <? n) eqn:E; lia.
Qed.
Lemma EV_upd f : (forall s, core (f s) = core s /\ s_defines (f s) = s_defines s /\ s_args (f s) = s_args s /\
    s_errs (f s) = s_errs s /\ s_exitc s <= s_exitc (f s) /\ (s_erroc s = true -> s_erroc (f s) = true)) -> EV any never (upd f).
Proof.
  intros H s Hs. simpl. destruct (H s) as (H1 & H2 & H3 & H4 & H5 & H6).
  split; [|split; [|split; [exact I|discriminate]]].
  - split; auto; rewrite ?H2, ?H3, ?H4; auto using tlike_refl, alike_refl. exists []. split; [reflexivity|constructor].
  - destruct Hs. split; rewrite ?H2, ?H3, ?H4, ?(core_sess _ _ H1), ?(core_file _ _ H1); assumption.
Qed.
Lemma EV_get_define r : EV (fun d => oclean (d_contents d)) never (get_define r).
Proof.
  intros s Hs. unfold get_define. destruct (lookup_ref s r) as [d|] eqn:E; [|exact I].
  split; [apply ev_refl|]. split; [exact Hs|]. split; [|discriminate]. destruct r as [n|id n]; simpl in E.
  - eapply tok_find; [apply Hs|exact E].
  - destruct (find_set id (s_args s)) eqn:E2; [|discriminate]. eapply tok_find; [|exact E]. eapply atok_find; [apply Hs|exact E2].
Qed.
Lemma set_special r t : special (match r with RG n => n | RL _ n => n end) -> clean t -> EV any never (set_contents r t).
Proof.
  intros Hk Ht s Hs. unfold set_contents, bind, get_define. destruct (lookup_ref s r) as [d|] eqn:E; [|exact I].
  unfold put_define. rewrite E. destruct r as [n|id n]; simpl in E.
  - split; [|split; [|split; [exact I|discriminate]]].
    + split; simpl; auto using alike_refl; [|exists []; split; [reflexivity|constructor]|lia].
      apply tset_same_like; [apply Hs|exact E|exact Hk].
    + destruct Hs. split; simpl; auto. apply tok_set; auto.
  - destruct (find_set id (s_args s)) as [u|] eqn:E2; [|discriminate].
    split; [|split; [|split; [exact I|discriminate]]].
    + split; simpl; auto using tlike_refl; [|exists []; split; [reflexivity|constructor]|lia].
      eapply alike_put; [exact E2|]. pose proof (atok_find _ _ _ (iv_args _ Hs) E2) as (K & _).
      apply tset_same_like; [exact K|exact E|exact Hk].
    + destruct Hs. split; simpl; auto. apply atok_put; [assumption|]. apply tok_set; auto. eapply atok_find; eauto.
Qed.
Lemma find_arg_key k a r : find_arg k a = Some r -> exists id, r = RL id k.
Proof. induction a as [|[id t] a IH]; [discriminate|]. simpl. destruct (tfind k t); [intros E; injection E as <-; eauto|auto]. Qed.
Lemma EV_search_defines C name local : EV any never (search_defines C name local).
Proof.
  unfold search_defines. intros s Hs. rewrite !bind_get. set (k := key C name).
  set (r := match (if local then find_arg k (s_args s) else None) with Some r => Some r | None => _ end).
  assert (G : forall d, r = Some d -> (match d with RG n => n | RL _ n => n end) = k).
  { intros d. unfold r. destruct (if local then _ else _) as [d'|] eqn:E.
    - destruct local; [|discriminate]. intros X. injection X as <-. apply find_arg_key in E. destruct E as (id & ->). reflexivity.
    - destruct (tfind k (s_defines s)); [|discriminate]. intros X. injection X as <-. reflexivity. }
  clearbody r. revert s Hs.
  assert (K : EV any never ((if eqbl k (zs "__LINE")
     then ln <- get s_line;; match r with Some d => set_contents d (dec ln) | None => ret tt end
     else if eqbl k (zs "__FILE") then f <- get s_file;; match r with Some d => set_contents d (quote_file f) | None => ret tt end
     else ret tt);;; ret r)); [|exact K].
  apply EV_bind with (Q1 := any) (F1 := never); [|intros ? _; apply EV_ret; [exact I|reflexivity]].
  destruct (eqbl k (zs "__LINE")) eqn:E1; [|destruct (eqbl k (zs "__FILE")) eqn:E2].
  - apply EV_bind with (Q1 := any) (F1 := never); [apply EV_get|intros ln _].
    destruct r as [d|]; [|apply EV_ret; [exact I|reflexivity]].
    apply set_special; [|apply clean_dec]. rewrite (G d eq_refl). left. now apply eqbl_eq.
  - intros s Hs. rewrite bind_get. destruct r as [d|]; [|apply EV_ret; [exact I|reflexivity|exact Hs]].
    apply set_special; [|apply clean_quote; apply Hs|exact Hs]. rewrite (G d eq_refl). right. now apply eqbl_eq.
  - apply EV_ret; [exact I|reflexivity].
Qed.

(** * Sessions *)
Definition to_sess (n : Z) (e : err) : err := mkerr (e_code e) n (e_warn e) (e_line e) (e_file e).
Lemma unlead_new n new old : Forall (fun e => e_sess e = n /\ e_code e <> 0) new -> Forall (fun e => e_sess e <= n - 1) old ->
  unlead n (new ++ old) = old.
Proof.
  intros Hn Ho. induction Hn as [|e l (H & _) Hn IH]; simpl.
  - destruct Ho; simpl; [reflexivity|]. replace (_ =? n) with false by lia. reflexivity.
  - rewrite H, Z.eqb_refl. exact IH.
Qed.
Lemma lead_new n new old : Forall (fun e => e_sess e = n /\ e_code e <> 0) new -> Forall (fun e => e_sess e <= n - 1) old ->
  lead n (new ++ old) = new.
Proof.
  intros Hn Ho. induction Hn as [|e l (H & _) Hn IH]; simpl.
  - destruct Ho; simpl; [reflexivity|]. replace (_ =? n) with false by lia. reflexivity.
  - rewrite H, Z.eqb_refl. f_equal. exact IH.
Qed.
Lemma replay_new n new old : Forall (fun e => e_sess e = n /\ e_code e <> 0) new -> Forall (fun e => e_sess e <= n - 1) old ->
  replay_up n (new ++ old) = map (to_sess (n - 1)) new ++ old.
Proof.
  intros Hn Ho. induction Hn as [|e l (H & _) Hn IH]; simpl.
  - destruct Ho; simpl; [reflexivity|]. replace (_ =? n) with false by lia. reflexivity.
  - rewrite H, Z.eqb_refl. f_equal. exact IH.
Qed.
Lemma inv_start s : inv s -> inv (set_sess (s_sess s + 1) s).
Proof. intros []. split; simpl; auto; [lia|]. eapply Forall_impl; [|eassumption]. simpl; lia. Qed.
Lemma end_nested n s : n <> 1 -> end_session n s = Ok tt (set_sess (s_sess s - 1) (set_errs (unlead n (s_errs s)) s)).
Proof.
  intros H. unfold end_session. rewrite !bind_get, !bind_upd. replace (n =? 1) with false by lia. reflexivity.
Qed.
Lemma replay_nested C n f s : n <> 1 -> replay_session C n f s = Ok tt (set_errs (replay_up n (s_errs s)) s).
Proof. intros H. unfold replay_session. rewrite bind_get. replace (n =? 1) with false by lia. reflexivity. Qed.

(** What a state looks like inside a session opened on top of [s]. *)
Definition inside (s s1 : st) : Prop := ev (set_sess (s_sess s + 1) s) s1 /\ inv s1.
Lemma core_close s s1 : core s1 = core (set_sess (s_sess s + 1) s) ->
  forall e, core (set_sess (s_sess s1 - 1) (set_errs e s1)) = core s.
Proof.
  intros H e. transitivity (set_sess (s_sess s1 - 1) (core s1)); [reflexivity|]. rewrite H.
  rewrite (core_sess _ _ H). simpl. replace (s_sess s + 1 - 1) with (s_sess s) by lia. destruct s; reflexivity.
Qed.
Lemma close_drop s s1 : inv s -> inside s s1 ->
  exists s2, end_session (s_sess s + 1) s1 = Ok tt s2 /\ ev s s2 /\ inv s2 /\ s_errs s2 = s_errs s /\ s_depth s2 = s_depth s1.
Proof.
  intros Hs (H & Hs1). pose proof (iv_sess _ Hs). rewrite end_nested by lia. eexists. split; [reflexivity|].
  destruct H as [H1 H2 H3 (new & H4 & H5) H6 H7]. simpl in *.
  assert (U : unlead (s_sess s + 1) (s_errs s1) = s_errs s).
  { rewrite H4. apply unlead_new; [exact H5|]. eapply Forall_impl; [|apply (iv_errs _ Hs)]. simpl; lia. }
  pose proof (core_close s s1 H1) as H1'. split; [|split; [|split; [exact U|reflexivity]]].
  - split; simpl; auto. exists []. split; [exact U|constructor].
  - pose proof (core_sess _ _ H1) as K. simpl in K. destruct Hs1. split; simpl; auto; [lia|]. rewrite U, K.
    replace (s_sess s + 1 - 1) with (s_sess s) by lia. apply Hs.
Qed.
Lemma close_keep C f s s1 : inv s -> inside s s1 ->
  exists s2, (replay_session C (s_sess s + 1) f ;;; end_session (s_sess s + 1)) s1 = Ok tt s2 /\ ev s s2 /\ inv s2 /\
    (grew (set_sess (s_sess s + 1) s) s1 -> grew s s2) /\ s_depth s2 = s_depth s1.
Proof.
  intros Hs (H & Hs1). pose proof (iv_sess _ Hs). rewrite (bind_ok _ _ _ _ _ (replay_nested C (s_sess s + 1) f s1 ltac:(lia))).
  rewrite end_nested by lia. eexists. split; [reflexivity|].
  destruct H as [H1 H2 H3 (new & H4 & H5) H6 H7]. simpl in *.
  set (e := unlead (s_sess s + 1) (replay_up (s_sess s + 1) (s_errs s1))).
  assert (U : e = map (to_sess (s_sess s)) new ++ s_errs s).
  { unfold e. rewrite H4, (replay_new (s_sess s + 1)); [|exact H5|eapply Forall_impl; [|apply (iv_errs _ Hs)]; simpl; lia].
    replace (s_sess s + 1 - 1) with (s_sess s) by lia.
    apply (unlead_new (s_sess s + 1) [] (map (to_sess (s_sess s)) new ++ s_errs s)); [constructor|]. apply Forall_app. split.
    - apply Forall_map. apply Forall_forall. intros x _. simpl. lia.
    - eapply Forall_impl; [|apply (iv_errs _ Hs)]. simpl; lia. }
  clearbody e. subst e.
  pose proof (core_close s s1 H1) as H1'. split; [|split; [|split; [|reflexivity]]].
  - split; [exact (H1' (map (to_sess (s_sess s)) new ++ s_errs s))|exact H2|exact H3| |exact H6|exact H7].
    eexists. split; [reflexivity|]. apply Forall_map. eapply Forall_impl; [|exact H5]. simpl. tauto.
  - pose proof (core_sess _ _ H1) as K. simpl in K. destruct Hs1. split; simpl; auto; [lia|]. rewrite K.
    replace (s_sess s + 1 - 1) with (s_sess s) by lia. apply Forall_app. split; [|apply Hs].
    apply Forall_map. apply Forall_forall. intros x _. simpl. lia.
  - unfold grew. simpl. rewrite H4, !app_length, map_length. lia.
Qed.
Lemma start_is {A} (k : Z -> M A) s : bind start_session k s = k (s_sess s + 1) (set_sess (s_sess s + 1) s).
Proof. reflexivity. Qed.

(** ** Argument sets *)
Lemma ev_pop s1 s2 id t rest : ev s1 s2 -> s_args s1 = (id, t) :: rest ->
  exists t' rest', s_args s2 = (id, t') :: rest' /\ ev (set_args rest s1) (set_args rest' s2).
Proof.
  intros [H1 H2 H3 H4 H6 H7] E. rewrite E in H3. inversion H3 as [|x y l l' (K1 & K2) K3 E1 E2]; subst. destruct y as [id' t'].
  simpl in K1. subst id'. exists t', l'. split; [reflexivity|]. split; simpl; auto.
Qed.
Lemma inv_pop s id t rest : inv s -> s_args s = (id, t) :: rest -> inv (set_args rest s).
Proof. intros [] E. rewrite E in *. split; simpl; auto. now inversion iv_args. Qed.
Lemma EV_add_arg C name v id s t rest : inv s -> oclean v -> s_args s = (id, t) :: rest ->
  exists t', add_arg C name v id s = Ok tt (set_args ((id, t') :: rest) s) /\ inv (set_args ((id, t') :: rest) s).
Proof.
  intros Hs Hv E. unfold add_arg. rewrite !bind_get, E. simpl. rewrite Nat.eqb_refl. eexists. split; [reflexivity|].
  destruct Hs. rewrite E in *. inversion iv_args as [|x l K1 K2]; subst. split; simpl; auto. constructor; [|exact K2]. simpl.
  apply tok_set; assumption.
Qed.
Lemma remove_top s id t rest : s_args s = (id, t) :: rest -> remove_arg_set (Some id) s = Ok tt (set_args rest s).
Proof. intros E. unfold remove_arg_set. rewrite bind_get, E. simpl. now rewrite Nat.eqb_refl. Qed.

(** [m] pushes at most one argument set. *)
Definition pushed (s s' : st) (o : option nat) : Prop :=
  inv s' /\ match o with
  | None => ev s s'
  | Some id => exists t rest, s_args s' = (id, t) :: rest /\ ev s (set_args rest s')
  end.
Lemma pushed_then s s1 s2 o : pushed s s1 o -> ev s1 s2 -> inv s2 -> pushed s s2 o.
Proof.
  intros (H1 & H2) K1 K2. split; [exact K2|]. destruct o as [id|].
  - destruct H2 as (t & rest & E & H2). destruct (ev_pop _ _ _ _ _ K1 E) as (t' & rest' & E' & K). exists t', rest'.
    split; [exact E'|]. eapply ev_trans; eauto.
  - eapply ev_trans; eauto.
Qed.
Lemma pop_pushed s s1 o : pushed s s1 o -> exists s2, remove_arg_set o s1 = Ok tt s2 /\ ev s s2 /\ inv s2 /\ s_errs s2 = s_errs s1.
Proof.
  intros (H1 & H2). destruct o as [id|].
  - destruct H2 as (t & rest & E & H2). rewrite (remove_top _ _ _ _ E). eexists. split; [reflexivity|]. split; [exact H2|].
    split; [eapply inv_pop; eauto|reflexivity].
  - exists s1. split; [reflexivity|]. split; [exact H2|]. split; [exact H1|reflexivity].
Qed.

(** * The functions *)
Definition is_none {A} (o : option A) : bool := match o with None => true | Some _ => false end.
Definition okq {A} (r : option (text * A)) : Prop := match r with Some (q, _) => clean q | None => True end.

Ltac evb L := eapply EV_bind; [apply L; auto|intros ? ?].
Ltac evr := apply EV_ret; [first [exact I|assumption|now auto|idtac]|try reflexivity].
Ltac dif := match goal with |- EV _ _ (if ?b then _ else _) => destruct b end.
Ltac wk := unfold never; simpl; intros; rewrite ?andb_true_r in *; auto.
Lemma EV_show_warning : EV any never show_warning. Proof. apply EV_raise. Qed.
Lemma EV_show_error : EV any never show_error. Proof. apply EV_raise. Qed.
Lemma EV_show_fatal : EV any never show_fatal_error.
Proof.
  unfold show_fatal_error. evb (EV_raise EXIT_FATAL_ERROR). eapply EV_weak; [apply EV_upd|auto|discriminate].
  intros s. simpl. repeat split; auto; lia.
Qed.
(** A problem followed by a result. *)
Lemma EV_fail {A} (Q : A -> Prop) F w c a : c <> 0 -> Q a -> EV Q F (set_problem w c ;;; ret a).
Proof. intros Hc Hq. eapply EV_bind; [now apply EV_problem|intros ? _]. apply EV_ret; [exact Hq|]. apply andb_false_r. Qed.
Lemma EV_read_expr' buf p d : clean p -> EV (fun r => clean (rx_ptr r) /\ clean (rx_word r)) never (read_expr' buf p d).
Proof.
  intros H. unfold read_expr'. eapply EV_bind with (Q1 := any) (F1 := never).
  - destruct (rx_long _); [apply EV_show_fatal|evr].
  - intros ? _. apply EV_ret; [now apply clean_read_gen|reflexivity].
Qed.
Lemma EV_read_expr p d : clean p -> EV (fun r => clean (rx_ptr r) /\ clean (rx_word r)) never (read_expr p d).
Proof. apply EV_read_expr'. Qed.
Lemma EV_conv base code s e : code <> 0 -> EV any is_none (conv_generic base code s e).
Proof.
  intros H. unfold conv_generic. destruct (strtoll base s) as [v ep]. destruct (Nat.ltb _ _); [apply EV_fail; [exact H|exact I]|].
  destruct (_ || _); [apply EV_fail; [discriminate|exact I]|]. apply EV_ret; [exact I|reflexivity].
Qed.
Lemma EV_search_labels C n : EV any never (search_labels C n).
Proof. unfold search_labels. evb (@EV_get). evr. Qed.
Lemma EV_search_local C n : EV any never (search_local_defines C n).
Proof. unfold search_local_defines. evb (@EV_get). evr. Qed.
Lemma EV_get_reusable : EV any never get_curr_reusable.
Proof. unfold get_curr_reusable. evb (@EV_get). evr. Qed.
Lemma EV_search_reusables i : EV any never (search_reusables i).
Proof.
  unfold search_reusables. evb (@EV_get). evb (@EV_get). destruct (_ || _); [|destruct (i <? 0); [apply EV_undef|evr]].
  evb EV_show_error. evr.
Qed.
Lemma EV_char_escape C c : EV any never (char_escape C c).
Proof.
  unfold char_escape. repeat match goal with |- EV _ _ (if ?b then _ else _) => destruct b; [first [evr|idtac]|] end.
  - unfold next_rand. eapply EV_bind with (Q1 := any) (F1 := never); [|intros; evr].
    evb (@EV_get). eapply EV_bind with (Q1 := any) (F1 := never); [|intros; evr].
    apply EV_upd. intros s. simpl. repeat split; auto; lia.
  - evr.
Qed.
Lemma EV_plain_upd f : (forall s, core (f s) = core s /\ s_defines (f s) = s_defines s /\ s_args (f s) = s_args s /\
    s_errs (f s) = s_errs s /\ s_exitc (f s) = s_exitc s /\ s_erroc (f s) = s_erroc s) -> EV any never (upd f).
Proof.
  intros H. apply EV_upd. intros s. destruct (H s) as (H1 & H2 & H3 & H4 & H5 & H6). rewrite H5, H6. repeat split; auto. lia.
Qed.
Lemma EV_extract p x : clean p ->
  EV (fun '(w, q, _) => clean q /\ oclean w) never (extract_arg p x).
Proof.
  intros H. unfold extract_arg. eapply EV_bind; [apply EV_read_expr; exact H|]. intros r (H1 & H2).
  destruct (rx_ret r).
  - destruct (_ =? 44); evr; simpl; auto using clean_tl.
  - eapply EV_bind with (Q1 := any) (F1 := never).
    + destruct x; [|evr]. eapply EV_weak; [apply EV_problem; discriminate|auto|discriminate].
    + intros. evr; simpl; auto.
Qed.
Lemma EV_int_res C z : EV any never (int_res C z).
Proof. unfold int_res. destruct (in_int z); [evr|]. destruct (c_wrap C); [evr|apply EV_undef]. Qed.
Lemma EV_apply_op C o a b : EV any never (apply_op C o a b).
Proof.
  destruct o; simpl; try (evr); try apply EV_int_res;
    try (destruct (div_undefined a b); [apply EV_undef|evr]);
    destruct (shift_ok b); try apply EV_undef; evr.
Qed.

Lemma clean_match_op : forall l p o q, clean p -> match_op l p = Some (o, q) -> clean q.
Proof.
  induction l as [|[x y] l IH]; intros p o q H E; [discriminate|]. simpl in E.
  repeat match type of E with (if ?b then _ else _) = _ => destruct b end; try (now eapply IH; eauto);
  inversion E; subst; auto using clean_skipn, clean_tl.
Qed.
Lemma clean_unary p i n q : clean p -> unary p = (i, n, q) -> clean q.
Proof.
  intros H. unfold unary. cbv zeta. repeat match goal with |- (if ?b then _ else _) = _ -> _ => destruct b end;
  intros E; inversion E; subst; auto using clean_skip_ws, clean_tl.
Qed.
Lemma clean_skip_string : forall n p, (length p <= n)%nat -> clean p -> clean (skip_string p).
Proof.
  induction n as [|n IH]; intros [|c p] Hn H; simpl in *; auto; try lia. destruct (c =? 34); [exact H|]. inversion H; subst.
  destruct (c =? 92); [|apply IH; [lia|assumption]]. destruct p as [|x p]; [constructor|]. simpl in Hn. inversion H3; subst.
  apply IH; [lia|assumption].
Qed.
Lemma clean_after_string p : clean p -> clean (match skip_string p with [] => [] | _ :: q' => q' end).
Proof.
  intros H. apply (clean_skip_string (length p) p (le_n _)) in H. destruct (skip_string p); [constructor|now inversion H].
Qed.
Lemma clean_skip_seps : forall p, clean p -> clean (skip_seps p).
Proof. induction p as [|c p IH]; intros H; cbn [skip_seps]; auto. destruct (memb c separators); [|exact H]. inversion H; auto. Qed.
Definition op_bad (o : opres) : bool := match o with OpBad => true | _ => false end.
Definition op_clean (o : opres) : Prop := match o with OpEnd p | OpClose p | OpNext _ p => clean p | OpBad => True end.

Section Fns.
Variable C : cfg.
Variable R : fns.
Hypothesis Hfull : forall p d, clean p -> EV okq is_none (f_full R p d).
Hypothesis Heval : forall p, clean p -> EV clean never (f_eval R p).
Hypothesis Hexp : forall d p l, clean p -> EV clean never (f_expand R d p l).

Lemma EV_parse_num p : clean p -> EV any is_none (parse_num R p).
Proof.
  intros H. unfold parse_num. eapply EV_bind; [apply EV_plain_upd; repeat split|]. intros ? _.
  eapply EV_bind; [apply Hfull; exact H|]. intros [[q v]|] _; apply EV_ret; try exact I; reflexivity.
Qed.
Lemma EV_parse_f p : clean p -> EV any never (parse_f R p).
Proof.
  intros H s Hs. unfold parse_f. rewrite start_is. set (s0 := set_sess _ s).
  pose proof (EV_parse_num p H s0 (inv_start s Hs)) as K. unfold bind at 1. destruct (parse_num R p s0) as [r s1|c s1|w|]; auto.
  destruct K as (K1 & K2 & _ & _). rewrite bind_get. destruct (close_drop s s1 Hs (conj K1 K2)) as (s2 & E & E2 & E3 & _ & _).
  rewrite (bind_ok _ _ _ _ _ E). simpl. split; [exact E2|]. split; [exact E3|]. split; [exact I|discriminate].
Qed.
(** The scanner of define contents changes the line number only. *)
Lemma define_loop_clean base : forall fuel p s, clean base -> clean p ->
  match parse_define_loop R fuel base p s with
  | Ok o s' => oclean o /\ exists l, s' = set_line l s
  | Exit _ _ => False
  | _ => True
  end.
Proof.
  induction fuel as [|f IH]; intros p s Hb Hp; [exact I|]. cbn [parse_define_loop]. rewrite bind_get.
  assert (Id : exists l, s = set_line l s) by (exists (s_line s); destruct s; reflexivity).
  destruct p as [|c p']; [split; [exact I|exact Id]|]. set (p := c :: p') in *. clearbody p. clear c p'.
  destruct (s_erroc s); [split; [exact I|exact Id]|]. cbv zeta.
  destruct (Z.eqb_spec (hd0 (skip_ws p)) 35) as [E|E]; [exfalso; revert E; apply clean_hd, clean_skip_ws, Hp|].
  destruct (is_eol (skip_ws p)).
  - rewrite bind_get, bind_upd. specialize (IH (next_code_line p) (set_line (s_line s + 1) s) Hb (clean_next_code_line _ Hp)).
    destruct (parse_define_loop _ _ _ _ _) as [o s2|c s2|w|]; [|exact IH|exact I|exact I]. destruct IH as (H1 & l & ->). split; [exact H1|]. exists l. reflexivity.
  - destruct (skip_to_code_line_end base (skip_ws p)); [|exact I]. split; [|exact Id]. apply clean_seg, clean_skip_ws, Hp.
Qed.
Lemma EV_reduce_body s : clean s -> forall q, EV any never (reduce_body R s q).
Proof.
  assert (G : forall n s, (length s <= n)%nat -> clean s -> forall q, EV any never (reduce_body R s q)).
  { clear s. induction n as [|n IH]; intros s Hn Hc q; (destruct s as [|c s]; [evr|]); [simpl in Hn; lia|]. simpl in Hn.
    cbn [reduce_body]. destruct (c =? 92).
    - destruct s as [|x s]; [apply EV_undef|]. eapply EV_bind with (Q1 := any) (F1 := never).
      + eapply EV_weak; [apply EV_parse_num|intros ? H; exact H|discriminate]. inversion Hc; subst. inversion H2; subst.
        constructor; [discriminate|]. constructor; [discriminate|]. constructor; [assumption|]. constructor; [discriminate|constructor].
      + intros v _. eapply EV_bind with (Q1 := any) (F1 := never); [|intros [t q'] _; evr].
        apply IH; [simpl in Hn; lia|]. inversion Hc; subst. now inversion H2.
    - eapply EV_bind with (Q1 := any) (F1 := never); [|intros [t q'] _; evr]. apply IH; [lia|]. now inversion Hc. }
  intros. now apply (G (length s)).
Qed.
Lemma EV_reduce_string s : clean s -> EV any never (reduce_string R s).
Proof. intros H. unfold reduce_string. eapply EV_bind; [now apply EV_reduce_body|]. intros [t q] _. evr. Qed.
(** Failure of a value that is left alone: none. *)
Lemma EV_parse_getc p : clean p -> EV okq is_none (parse_getc C R p).
Proof.
  intros H. unfold parse_getc. eapply EV_bind; [apply EV_read_expr; exact H|]. intros r1 (H1 & H2).
  eapply EV_bind; [apply EV_search_defines|]. intros d _.
  eapply EV_bind with (Q1 := clean) (F1 := never).
  { destruct d as [r|]; [|evr]. eapply EV_bind; [apply EV_get_define|]. intros d Hd. cbv beta in Hd.
    destruct (d_contents d); [|apply EV_undef]. destruct (256 <=? _); [apply EV_undef|evr]. }
  intros fname Hf. eapply EV_bind; [apply EV_read_expr; exact H1|]. intros r2 (H3 & H4).
  eapply EV_bind; [apply EV_parse_f; exact H4|]. intros i _.
  eapply EV_bind; [apply EV_reduce_string; exact Hf|]. intros fn _.
  eapply EV_bind with (Q1 := any) (F1 := never).
  { destruct (c_files C _); [evr|]. apply EV_fail; [discriminate|exact I]. }
  intros v _. evr. simpl. destruct (_ =? 41); auto using clean_tl.
Qed.

Lemma args_loop r id : forall fuel num x p s s0 t rest, inv s -> clean p -> s_args s = (id, t) :: rest -> ev s0 (set_args rest s) ->
  match parse_args_loop C R fuel r id num x p s with
  | Ok (q, _) s' => clean q /\ inv s' /\ exists t' rest', s_args s' = (id, t') :: rest' /\ ev s0 (set_args rest' s')
  | Exit _ _ => False
  | _ => True
  end.
Proof.
  induction fuel as [|f IH]; intros num x p s s0 t rest Hs Hp Ha He; [exact I|]. cbn [parse_args_loop].
  (* moving on by an evaluation *)
  assert (Mv : forall s t rest s', ev s s' -> s_args s = (id, t) :: rest -> ev s0 (set_args rest s) ->
    exists t' rest', s_args s' = (id, t') :: rest' /\ ev s0 (set_args rest' s')).
  { clear. intros s t rest s' H E K. destruct (ev_pop _ _ _ _ _ H E) as (t' & rest' & E' & K'). exists t', rest'.
    split; [exact E'|]. eapply ev_trans; eauto. }
  unfold bind at 1. pose proof (EV_extract p x Hp s Hs) as K. destruct (extract_arg p x s) as [[[w q] x'] s1|c s1|u|]; auto.
  destruct K as (K1 & K2 & (K3 & K4) & _). destruct (Mv _ _ _ _ K1 Ha He) as (t1 & r1 & E1 & F1).
  destruct w as [word|].
  2:{ simpl. split; [exact K3|]. split; [exact K2|]. eauto. }
  unfold bind at 1. pose proof (EV_get_define r s1 K2) as K. destruct (get_define r s1) as [d s2|c s2|u|]; auto.
  destruct K as (L1 & L2 & L3 & _). destruct (Mv _ _ _ _ L1 E1 F1) as (t2 & r2 & E2 & F2).
  destruct (nth_error (d_args d) num) as [name|].
  2:{ unfold bind. pose proof (EV_problem true SPASM_WARN_MACRO_TOO_MANY_ARGS ltac:(discriminate) s2 L2) as K.
      unfold set_warning. destruct (set_problem _ _ s2) as [u s3|c s3|u|]; auto. destruct K as (N1 & N2 & _ & _).
      destruct (Mv _ _ _ _ N1 E2 F2) as (t3 & r3 & E3 & F3). simpl. split; [exact K3|]. split; [exact N2|]. eauto. }
  assert (K : EV clean never (if hd0 name =? 64 then ret word else f_eval R word)).
  { destruct (_ =? 64); [evr|apply Heval]; exact K4. }
  unfold bind at 1. specialize (K s2 L2). destruct ((if hd0 name =? 64 then ret word else f_eval R word) s2) as [v s3|c s3|u|]; auto.
  destruct K as (N1 & N2 & N3 & _). destruct (Mv _ _ _ _ N1 E2 F2) as (t3 & r3 & E3 & F3).
  destruct (EV_add_arg C name (Some v) id s3 t3 r3 N2 N3 E3) as (t4 & E4 & I4).
  rewrite (bind_ok _ _ _ _ _ E4). eapply IH; [exact I4|exact K3|reflexivity|]. exact F3.
Qed.
Lemma fill_args_ok : forall names id s s0 t rest, inv s -> s_args s = (id, t) :: rest -> ev s0 (set_args rest s) ->
  match fill_args C names id s with
  | Ok _ s' => inv s' /\ exists t' rest', s_args s' = (id, t') :: rest' /\ ev s0 (set_args rest' s')
  | Exit _ _ => False
  | _ => True
  end.
Proof.
  induction names as [|n names IH]; intros id s s0 t rest Hs Ha He; [simpl; eauto|]. cbn [fill_args].
  destruct (EV_add_arg C n None id s t rest Hs I Ha) as (t4 & E4 & I4). rewrite (bind_ok _ _ _ _ _ E4).
  eapply IH; [exact I4|reflexivity|exact He].
Qed.
Lemma parse_args_ok p r s : inv s -> clean p ->
  match parse_args C R p r s with
  | Ok (q, o) s' => clean q /\ pushed s s' o
  | Exit _ _ => False
  | _ => True
  end.
Proof.
  intros Hs Hp. unfold parse_args, get_define. unfold bind at 1. destruct (lookup_ref s r) as [d|]; [|exact I].
  destruct (_ && _); [simpl; split; [exact Hp|split; [exact Hs|apply ev_refl]]|].
  unfold add_arg_set. rewrite bind_assoc, bind_get, bind_assoc, bind_get, bind_assoc, bind_upd, bind_assoc, bind_upd, bind_ret.
  set (id := s_nextid s). set (s1 := set_nextid _ _).
  assert (I1 : inv s1). { destruct Hs. split; simpl; auto. constructor; [|assumption]. split; constructor. }
  assert (A1 : s_args s1 = (id, []) :: s_args s) by reflexivity.
  assert (F1 : ev s (set_args (s_args s) s1)).
  { split; simpl; auto using tlike_refl, alike_refl; [|lia]. exists []. split; [reflexivity|constructor]. }
  clearbody s1 id.
  assert (K : match (if hd0 p =? 40
       then let p := skip_ws (tl p) in
            if negb (hd0 p =? 41) && negb (is_eol p) then parse_args_loop C R (S (length p)) r id 0 true p else ret (p, 0%nat)
       else ret (p, 0%nat)) s1 with
    | Ok (q, _) s' => clean q /\ inv s' /\ exists t' rest', s_args s' = (id, t') :: rest' /\ ev s (set_args rest' s')
    | Exit _ _ => False
    | _ => True end).
  { destruct (_ =? 40); [|simpl; eauto 10]. cbv zeta.
    assert (Hq : clean (skip_ws (tl p))) by auto using clean_skip_ws, clean_tl.
    destruct (_ && _); [|simpl; eauto 10]. eapply args_loop; eauto. }
  unfold bind at 1. match type of K with match ?m with _ => _ end => destruct m as [[q num] s2|c s2|u|] end; auto.
  destruct K as (K1 & K2 & t2 & r2 & E2 & F2). unfold bind at 1. destruct (lookup_ref s2 r) as [d2|]; [|exact I].
  pose proof (fill_args_ok (skipn num (d_args d2)) id s2 s t2 r2 K2 E2 F2) as K. unfold bind at 1.
  destruct (fill_args C _ id s2) as [u s3|c s3|u|]; auto. destruct K as (K3 & K4). simpl.
  split; [destruct (_ =? 41); auto using clean_tl|]. split; [exact K3|]. exact K4.
Qed.

Lemma ev_line l s s' : ev s s' -> ev (set_line l s) (set_line l s').
Proof.
  intros [H1 H2 H3 H4 H5 H6]. split; auto.
  transitivity (set_line l (core s')); [reflexivity|]. rewrite H1. reflexivity.
Qed.
Lemma inv_line l s : inv s -> inv (set_line l s).
Proof. intros []. split; assumption. Qed.
Lemma set_line_same s : set_line (s_line s) s = s.
Proof. destruct s; reflexivity. Qed.
Lemma count_grew s s1 : inv s -> inside s s1 ->
  (grew (set_sess (s_sess s + 1) s) s1 <-> 0 <? err_count (s_sess s + 1) (s_errs s1) = true).
Proof.
  intros Hs ([_ _ _ (new & E & N) _ _] & _). unfold grew, err_count. simpl in *. rewrite E, app_length.
  rewrite (lead_new (s_sess s + 1)); [|exact N|eapply Forall_impl; [|apply (iv_errs _ Hs)]; simpl; lia].
  destruct new as [|e new]; simpl; [unfold zlen; simpl; split; [lia|discriminate]|].
  inversion N as [|x l K1 K2]; subst. replace (e_code e =? 0) with false by (symmetry; apply Z.eqb_neq; apply K1). simpl.
  unfold zlen. simpl. split; [intros _; lia|lia].
Qed.

Lemma EV_define_value p r : clean p -> EV okq is_none (parse_define_value C R p r).
Proof.
  intros Hp s Hs. unfold parse_define_value. unfold bind at 1. pose proof (parse_args_ok p r s Hs Hp) as K.
  destruct (parse_args C R p r s) as [[q args] s1|c s1|u|]; auto. destruct K as (Hq & K). pose proof (proj1 K) as I1.
  rewrite bind_get. unfold get_define. unfold bind at 1. destruct (lookup_ref s1 r) as [d|] eqn:L; [|exact I].
  rewrite bind_upd, start_is. change (s_sess (set_line (d_line d) s1)) with (s_sess s1). set (n := s_sess s1 + 1).
  set (s2 := set_sess n (set_line (d_line d) s1)).
  assert (I2 : inv s2) by (apply (inv_start (set_line (d_line d) s1)), inv_line, I1).
  assert (D : match parse_define R r s2 with
    | Ok o s' => oclean o /\ exists l, s' = set_line l s2 | Exit _ _ => False | _ => True end).
  { unfold parse_define, get_define. unfold bind. pose proof (EV_get_define r s2 I2) as G. unfold get_define in G.
    destruct (lookup_ref s2 r) as [d2|]; [|exact I]. destruct G as (_ & _ & G & _).
    destruct (d_contents d2) as [t|]; [apply define_loop_clean; exact G|].
    simpl. split; [exact I|]. exists (s_line s2). symmetry. apply set_line_same. }
  unfold bind at 1. destruct (parse_define R r s2) as [o s3|c s3|u|]; auto. destruct D as (Ho & l & E3).
  assert (I3 : inv s3) by (subst s3; apply inv_line, I2).
  assert (V : EV any is_none (match o with
      | None => set_error SPASM_ERR_ARG_USED_WITHOUT_VALUE ;;; ret None
      | Some t => r <- f_full R t 0 ;; ret (match r with Some (_, v) => Some v | None => None end) end)).
  { destruct o as [t|]; [|apply EV_fail; [discriminate|exact I]]. eapply EV_bind; [apply Hfull; exact Ho|].
    intros [[a b]|] _; apply EV_ret; try exact I; reflexivity. }
  unfold bind at 1. specialize (V s3 I3). match type of V with match ?m with _ => _ end => destruct m as [v s4|c s4|u|] end; auto.
  destruct V as (V1 & V2 & _ & V4). rewrite bind_upd, bind_get. set (s5 := set_line (s_line s1) s4).
  assert (In : inside s1 s5).
  { split; [|apply inv_line, V2]. pose proof (ev_line (s_line s1) _ _ V1) as W. fold s5 in W.
    replace (set_line (s_line s1) s3) with (set_sess (s_sess s1 + 1) s1) in W; [exact W|]. subst s3 s2. destruct s1; reflexivity. }
  assert (Gv : is_none v = true -> grew (set_sess (s_sess s1 + 1) s1) s5).
  { intros Ev. specialize (V4 Ev). unfold grew in *. subst s3. exact V4. }
  assert (St : forall s6, ev s1 s6 -> inv s6 -> exists s7, remove_arg_set args s6 = Ok tt s7 /\ ev s s7 /\ inv s7 /\ s_errs s7 = s_errs s6).
  { intros s6 X1 X2. apply pop_pushed. eapply pushed_then; eauto. }
  pose proof (count_grew s1 s5 I1 In) as Cg. fold n in Cg. cbv zeta.
  destruct (0 <? err_count n (s_errs s5)) eqn:B.
  - destruct (close_keep C false s1 s5 I1 In) as (s6 & E6 & X1 & X2 & X3 & _). fold n in E6.
    rewrite <- bind_assoc, (bind_ok _ _ _ _ _ E6). destruct (St s6 X1 X2) as (s7 & E7 & Y1 & Y2 & Y3).
    rewrite (bind_ok _ _ _ _ _ E7). simpl. split; [exact Y1|]. split; [exact Y2|]. split; [exact I|]. intros _.
    assert (G : grew s1 s6) by (apply X3, Cg; reflexivity). unfold grew in *. rewrite Y3.
    destruct K as (_ & K). destruct args as [id|].
    + destruct K as (t & rest & _ & K). apply ev_length in K. simpl in K. lia.
    + apply ev_length in K. lia.
  - rewrite bind_ret. destruct (close_drop s1 s5 I1 In) as (s6 & E6 & X1 & X2 & _ & _). fold n in E6.
    rewrite (bind_ok _ _ _ _ _ E6). destruct (St s6 X1 X2) as (s7 & E7 & Y1 & Y2 & Y3).
    rewrite (bind_ok _ _ _ _ _ E7). simpl. split; [exact Y1|]. split; [exact Y2|]. split; [exact Hq|]. discriminate.
Qed.

Lemma EV_parse_name p : clean p -> EV okq is_none (parse_name C R p).
Proof.
  intros H. unfold parse_name. cbv zeta. pose proof (clean_name_end _ H) as Hq. set (q := skip_to_name_end p) in *. set (name := seg p q).
  eapply EV_bind; [apply EV_search_local|]. intros ld _.
  eapply EV_bind with (Q1 := any) (F1 := never); [destruct ld; [evr|apply EV_search_labels]|]. intros lab _.
  eapply EV_bind with (Q1 := any) (F1 := never); [destruct ld, lab; try (evr); apply EV_search_defines|]. intros def _.
  destruct (eqbl name _).
  { eapply EV_bind; [apply EV_get_reusable|]. intros cur _. eapply EV_bind; [apply EV_get|]. intros tot _.
    destruct (_ <? _); [|apply EV_fail; [discriminate|exact I]]. eapply EV_bind; [apply EV_search_reusables|]. intros v _. evr. }
  destruct lab as [l|]; [evr|]. dif.
  { eapply EV_bind; [apply Hfull; exact Hq|]. intros [[a b]|] Ha; apply EV_ret; auto. }
  dif.
  { eapply EV_weak; [apply EV_parse_getc; apply clean_tl, Hq|auto|]. wk. }
  destruct def as [r|].
  { eapply EV_weak; [apply EV_define_value, Hq|auto|]. wk. }
  eapply EV_bind; [apply EV_problem; discriminate|]. intros ? _.
  eapply EV_bind; [apply EV_plain_upd; repeat split|]. intros ? _. apply EV_ret; [exact I|reflexivity].
Qed.
Lemma EV_num_result (q : text) (v : option Z) F : clean q -> F (num_result q v) = false -> EV okq F (ret (num_result q v)).
Proof. intros. apply EV_ret; [|assumption]. destruct v; simpl; auto. Qed.
Lemma EV_conv_result base code s e q : code <> 0 -> clean q -> EV okq is_none (v <- conv_generic base code s e ;; ret (num_result q v)).
Proof.
  intros Hc H. eapply EV_bind; [apply EV_conv, Hc|]. intros [v|] _; apply EV_num_result; auto.
Qed.
Lemma EV_parse_single p : clean p -> EV okq is_none (parse_single C R p).
Proof.
  intros H. unfold parse_single. cbv zeta. pose proof (clean_tl _ H) as Ht.
  destruct (_ =? 43).
  { eapply EV_bind; [apply EV_get_reusable|]. intros cur _. pose proof (clean_count_plus p cur H) as Hq.
    destruct (count_plus p cur) as [q i]. simpl in Hq. dif; [apply EV_fail; [discriminate|exact I]|].
    eapply EV_bind; [apply EV_get|]. intros tot _. destruct (_ <=? _); [apply EV_fail; [discriminate|exact I]|].
    eapply EV_bind; [apply EV_search_reusables|]. intros v _. apply EV_ret; [simpl; now apply clean_tl|reflexivity]. }
  destruct (_ =? 45).
  { eapply EV_bind; [apply EV_get_reusable|]. intros cur _. pose proof (clean_count_minus _ cur Ht) as Hq.
    destruct (count_minus (tl p) cur) as [q i]. simpl in Hq. dif; [apply EV_fail; [discriminate|exact I]|].
    eapply EV_bind; [apply EV_search_reusables|]. intros v _. apply EV_ret; [simpl; now apply clean_tl|reflexivity]. }
  destruct (_ =? 36).
  { destruct (isxdigit _); [apply EV_conv_result; [discriminate|now apply clean_skip_alnum]|].
    eapply EV_bind; [apply EV_get|]. intros pc _. evr. }
  destruct (_ =? 37); [apply EV_conv_result; [discriminate|now apply clean_skip_alnum]|].
  destruct (_ =? 39).
  { destruct (tl p) as [|c1 p1]; [apply EV_undef|]. inversion Ht as [|x l X1 X2]; subst.
    eapply EV_bind with (Q1 := fun '(v, e) => clean e) (F1 := never).
    - destruct (c1 =? 92); [|evr]. destruct p1 as [|c2 p2]; [apply EV_undef|]. inversion X2; subst.
      eapply EV_bind; [apply EV_char_escape|]. intros v _. evr.
    - intros [v e] He. destruct (_ =? 39); [apply EV_ret; [simpl; now apply clean_tl|reflexivity]|].
      eapply EV_bind; [apply EV_show_warning|]. intros ? _. apply EV_ret; [exact He|reflexivity]. }
  dif; [now apply EV_parse_name|].
  destruct (isdigit _); [|apply EV_fail; [discriminate|exact I]].
  assert (Hl : clean (last_alnum p)) by now apply clean_last_alnum.
  eapply EV_bind with (Q1 := any) (F1 := is_none).
  - repeat match goal with |- EV _ _ (if ?b then _ else _) => destruct b end; apply EV_conv; discriminate.
  - intros [v|] _; apply EV_num_result; auto using clean_tl.
Qed.
Lemma EV_get_op : forall fuel depth p, clean p -> EV op_clean op_bad (get_op fuel depth p).
Proof.
  induction fuel as [|f IH]; intros depth p H; [apply EV_nofuel|]. cbn [get_op]. cbv zeta.
  apply clean_skip_ws in H. set (p' := skip_ws p) in *. clearbody p'. clear p.
  destruct (is_eol p').
  { eapply EV_bind with (Q1 := any) (F1 := never); [destruct (0 <? depth); [apply EV_show_warning|evr]|].
    intros ? _. apply EV_ret; [exact H|reflexivity]. }
  destruct (match_op math_defs p') as [[o q]|] eqn:E.
  { apply clean_match_op in E; [|exact H]. apply clean_skip_ws in E. destruct (skip_ws q) as [|c q']; [apply EV_fail; [discriminate|exact I]|].
    apply EV_ret; [exact E|reflexivity]. }
  destruct (_ =? 41); [|apply EV_fail; [discriminate|exact I]]. destruct (0 <? depth).
  - apply EV_ret; [simpl; auto using clean_skip_ws, clean_tl|reflexivity].
  - eapply EV_bind; [apply EV_show_warning|]. intros ? _. eapply EV_weak; [apply IH; now apply clean_tl|auto|].
    wk.
Qed.
Lemma EV_dec_depth : EV any never dec_depth.
Proof. unfold dec_depth. eapply EV_bind; [apply EV_get|]. intros ? _. apply EV_plain_upd. repeat split. Qed.
Lemma EV_num_loop : forall fuel depth total op ln p, clean p -> EV okq is_none (num_loop C R fuel depth total op ln p).
Proof.
  induction fuel as [|f IH]; intros depth total op ln p H; [apply EV_nofuel|]. cbn [num_loop].
  destruct (unary p) as [[i n] p1] eqn:U. apply (clean_unary _ _ _ _ H) in U.
  eapply EV_bind with (Q1 := okq) (F1 := is_none).
  { destruct (_ =? 40); [|now apply EV_parse_single]. eapply EV_bind; [apply Hfull; now apply clean_tl|].
    intros [[a b]|] Ha; apply EV_ret; auto. }
  intros [[q v]|] Hq; [|apply EV_ret; [exact I|reflexivity]]. simpl in Hq.
  match goal with |- EV _ _ (match ?o with _ => _ end) => destruct o as [v1|] end; [|apply EV_undef]. cbv zeta.
  eapply EV_bind with (Q1 := any) (F1 := never); [destruct n; [apply EV_int_res|evr]|]. intros v2 _.
  dif; [apply EV_fail; [discriminate|exact I]|].
  dif; [apply EV_fail; [discriminate|exact I]|].
  eapply EV_bind; [apply EV_apply_op|]. intros tot _.
  eapply EV_bind; [apply EV_get_op, Hq|]. intros [q1|q1|o q1|] Hq1; simpl in Hq1.
  - eapply EV_bind; [apply EV_dec_depth|]. intros ? _. apply EV_ret; [exact Hq1|reflexivity].
  - eapply EV_bind; [apply EV_dec_depth|]. intros ? _. apply EV_ret; [exact Hq1|reflexivity].
  - eapply EV_weak; [apply IH, Hq1|auto|]. wk.
  - apply EV_ret; [exact I|reflexivity].
Qed.
Lemma EV_num_full p d : clean p -> EV okq is_none (parse_num_full C R p d).
Proof.
  intros H. unfold parse_num_full. eapply EV_bind; [apply EV_plain_upd; repeat split|]. intros ? _.
  eapply EV_bind; [apply EV_get|]. intros dd _. eapply EV_bind; [apply EV_plain_upd; repeat split|]. intros ? _.
  destruct (_ <? _); [apply EV_fail; [discriminate|exact I]|]. cbv zeta. apply clean_skip_ws in H.
  destruct (skip_ws p) as [|c p'] eqn:E; [apply EV_fail; [discriminate|exact I]|].
  eapply EV_weak; [apply EV_num_loop, H|auto|]. wk.
Qed.
Lemma EV_expand_loop : forall fuel depth local p, clean p -> EV clean never (expand_loop C R fuel depth local p).
Proof.
  induction fuel as [|f IH]; intros depth local p H; [apply EV_nofuel|]. cbn [expand_loop].
  destruct p as [|c p']; [apply EV_ret; [constructor|reflexivity]|].
  destruct (if hd0 (c :: p') =? 34 then _ else _) as [out1 p] eqn:E.
  assert (K : clean out1 /\ clean p).
  { destruct (_ =? 34); [|inversion E; subst; split; [constructor|exact H]]. cbv zeta in E.
    inversion E; subst. split; [apply clean_seg, H|]. apply (clean_after_string (tl (c :: p'))). now apply clean_tl. }
  clear E H c p'. destruct K as (H1 & H2). cbv zeta.
  assert (Rest : forall out2 p, clean out2 -> clean p ->
    EV clean never (t <- expand_loop C R f depth local (skip_seps p) ;; ret (out1 ++ out2 ++ seg p (skip_seps p) ++ t))).
  { intros out2 q Ho Hq. eapply EV_bind; [apply IH, clean_skip_seps, Hq|]. intros t Ht. apply EV_ret; [|reflexivity].
    repeat apply clean_app; auto. now apply clean_seg. }
  destruct (Nat.ltb _ _).
  2:{ destruct p as [|c p]; [apply (Rest [] []); constructor|]. inversion H2; subst. apply Rest; [|assumption]. constructor; [assumption|constructor]. }
  intros s Hs. revert s Hs.
  match goal with |- forall s, inv s -> _ => idtac end.
  intros s Hs. unfold bind at 1. pose proof (EV_search_defines C (seg p (skip_to_name_end p)) local s Hs) as K.
  destruct (search_defines C (seg p (skip_to_name_end p)) local s) as [def s1|? ?|?|]; auto. destruct K as (K1 & K2 & _ & _).
  assert (Cont : EV (fun x => match x with Some (r, d, t) => clean t | None => True end) never
    (match def with None => ret None | Some r => d <- get_define r ;;
       ret (match d_contents d with Some t => Some (r, d, t) | None => None end) end)).
  { destruct def as [r|]; [|evr]. eapply EV_bind; [apply EV_get_define|]. intros d Hd. cbv beta in Hd.
    destruct (d_contents d); evr. }
  unfold bind at 1. specialize (Cont s1 K2). match type of Cont with match ?m with _ => _ end => destruct m as [cont s2|? ?|?|] end; auto.
  destruct Cont as (C1 & C2 & C3 & _). pose proof (ev_trans _ _ _ K1 C1) as E2.
  (* from here on *)
  assert (Go : forall (m : M text) s2, ev s s2 -> inv s2 -> EV clean never m ->
    match m s2 with Ok a s' => ev s s' /\ inv s' /\ clean a /\ (never a = true -> grew s s') | Exit _ _ => False | _ => True end).
  { intros m s9 X1 X2 Hm. specialize (Hm s9 X2). destruct (m s9); auto. destruct Hm as (Y1 & Y2 & Y3 & _).
    split; [eapply ev_trans; eauto|]. split; [exact Y2|]. split; [exact Y3|discriminate]. }
  destruct cont as [[[r d] t]|].
  2:{ apply Go; [exact E2|exact C2|]. eapply EV_bind; [apply EV_search_labels|]. intros [l|] _.
      - eapply EV_weak; [apply Rest; [apply clean_firstn, clean_dec|now apply clean_name_end]|auto|discriminate].
      - eapply EV_weak; [apply Rest; [now apply clean_seg|now apply clean_name_end]|auto|discriminate]. }
  assert (A : match (if Nat.ltb 0 (length (d_args d)) then parse_args C R (skip_to_name_end p) r else ret (skip_to_name_end p, None)) s2 with
    | Ok (q, o) s' => clean q /\ pushed s2 s' o | Exit _ _ => False | _ => True end).
  { destruct (Nat.ltb _ _); [apply parse_args_ok; [exact C2|now apply clean_name_end]|]. simpl.
    split; [now apply clean_name_end|]. split; [exact C2|apply ev_refl]. }
  unfold bind at 1. match type of A with match ?m with _ => _ end => destruct m as [[q args] s3|? ?|?|] end; auto.
  destruct A as (A1 & A2). pose proof (proj1 A2) as I3.
  unfold bind at 1. pose proof (EV_get_define r s3 I3) as G. destruct (get_define r s3) as [d' s4|? ?|?|]; auto.
  destruct G as (G1 & G2 & G3 & _). destruct (d_contents d') as [t'|]; [|exact I]. rewrite bind_ret.
  unfold bind at 1. pose proof (Hexp (depth + 1) t' local G3 s4 G2) as X. destruct (f_expand R _ t' local s4) as [out2 s5|? ?|?|]; auto.
  destruct X as (X1 & X2 & X3 & _).
  destruct (pop_pushed s2 s5 args) as (s6 & E6 & Y1 & Y2 & Y3).
  { eapply pushed_then; [exact A2|eapply ev_trans; eauto|exact X2]. }
  rewrite (bind_ok _ _ _ _ _ E6). pose proof (ev_trans _ _ _ E2 Y1) as E7.
  rewrite bind_get. destruct (s_erroc s6).
  - simpl. split; [exact E7|]. split; [exact Y2|]. split; [now apply clean_app|discriminate].
  - apply Go; [exact E7|exact Y2|]. now apply Rest.
Qed.
Lemma EV_expand_full d p l : clean p -> EV clean never (expand_expr_full C R d p l).
Proof.
  intros H. unfold expand_expr_full. destruct (_ <? _); [apply EV_fail; [discriminate|constructor]|now apply EV_expand_loop].
Qed.
Lemma EV_eval p : clean p -> EV clean never (eval C R p).
Proof.
  intros H s Hs. unfold eval. rewrite start_is. set (s0 := set_sess _ s).
  pose proof (EV_parse_num p H s0 (inv_start s Hs)) as K. unfold bind at 1. destruct (parse_num R p s0) as [r s1|c s1|w|]; auto.
  destruct K as (K1 & K2 & _ & _). destruct (close_drop s s1 Hs (conj K1 K2)) as (s2 & E & E2 & E3 & _ & _).
  rewrite (bind_ok _ _ _ _ _ E).
  assert (Q : EV clean never (match r with
    | Some v => if v <? 0 then v <- int_res C (- v) ;; ret (45 :: 36 :: hexmin (u32 v)) else ret (36 :: hexmin v)
    | None => expand_expr R p true end)).
  { destruct r as [v|]; [|apply Hexp, H]. destruct (v <? 0).
    - eapply EV_bind; [apply EV_int_res|]. intros x _. apply EV_ret; [|reflexivity].
      constructor; [discriminate|]. constructor; [discriminate|apply clean_hexmin].
    - apply EV_ret; [|reflexivity]. constructor; [discriminate|apply clean_hexmin]. }
  exact (EV_after s s2 _ _ E2 E3 Q).
Qed.
End Fns.

(** ** The whole evaluator *)
Record evfns (R : fns) : Prop := mkevfns {
  vf_full : forall p d, clean p -> EV okq is_none (f_full R p d);
  vf_eval : forall p, clean p -> EV clean never (f_eval R p);
  vf_expand : forall d p l, clean p -> EV clean never (f_expand R d p l) }.
Lemma knot_ev C n : evfns (knot C n).
Proof.
  induction n as [|n [IH1 IH2 IH3]].
  - split; intros; apply EV_nofuel.
  - split; intros; cbn [knot f_full f_eval f_expand].
    + now apply EV_num_full.
    + now apply EV_eval.
    + now apply EV_expand_full.
Qed.
