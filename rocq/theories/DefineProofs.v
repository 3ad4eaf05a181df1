(** Names that are labels, symbols made by #define, or parameters of macros: what they mean in an expression. *)
From Verif Require Import Base BaseProofs State MonadProofs UtilsModel ErrorsModel StorageModel ParserModel Knot MainModel
  UtilsSpec UtilsProofs PassTwoSpec StorageProofs ParserSpec ParserProofs ParserProps AsmExpand.

(** ** What a name means *)
(** Text on one line without quotes. *)
Definition plain_char (c : Z) : Prop := ~ In c [10; 13; 59; 92; 34; 39].
(** The symbol that a name stands for: a parameter of a macro that is being expanded, or else, if it is
    not a label, a symbol made by #define. *)
Definition symbol_of (C : cfg) (s : st) (n : list Z) (r : dref) : Prop :=
  find_arg (key C n) (s_args s) = Some r \/
  (find_arg (key C n) (s_args s) = None /\ tfind (key C n) (s_labels s) = None /\
   key C n <> zs "__LINE" /\ key C n <> zs "__FILE" /\ r = RG (key C n)).
(** [meaning C s n k v]: in state [s] the name [n] is a label of value [v], or a symbol defined as an
    expression over such names that has the value [v]; [k] nested definitions are looked at. *)
Inductive meaning (C : cfg) (s : st) : list Z -> nat -> Z -> Prop :=
  | M_label n l : find_arg (key C n) (s_args s) = None -> tfind (key C n) (s_labels s) = Some l -> meaning C s n 0 (l_value l)
  | M_define n r d w1 te w2 e need val v :
      symbol_of C s n r -> lookup_ref s r = Some d -> d_args d = [] -> d_contents d = Some (w1 ++ te ++ w2) ->
      Forall UtilsSpec.blank w1 -> writes e te -> Forall UtilsSpec.blank w2 -> Forall plain_char te ->
      (forall m, mentions m e -> meaning C s m (need m) (val m)) ->
      value (c_wrap C) (s_pc s) (fun m => Some (val m)) e = Val v ->
      meaning C s n (S (wt need e)) v.

(** Error sessions are opened and closed like brackets, so no problem on the list belongs to a session
    that is not open (C16). *)
Definition sessions_ok (s : st) : Prop := Forall (fun e => e_sess e <= s_sess s) (s_errs s).

Lemma lead_none n l : Forall (fun e => e_sess e <= n) l -> lead (n + 1) l = [] /\ unlead (n + 1) l = l.
Proof. intros F. destruct F as [|e l H F]; [auto|]. cbn. replace (e_sess e =? n + 1) with false by lia. auto. Qed.
Lemma plain_loop : forall f p p1 p2, (length p < f)%nat -> Forall plain_char p -> next_expr_loop f [92; 59; 13; 10] scan0 p2 p1 p = Some [].
Proof.
  induction f as [|f IH]; intros p p1 p2 L F; [lia|]. destruct F as [|c p Hc F]; [reflexivity|]. cbn [next_expr_loop].
  assert (E : memb c [92; 59; 13; 10] = false /\ is_eol (c :: p) = false /\ (c =? 34) = false /\ (c =? 39) = false /\ (c =? 92) = false).
  { unfold plain_char in Hc. cbn in Hc. cbn [memb existsb is_eol]. repeat split; lia. }
  destruct E as (E1 & E2 & E3 & E4 & E5). rewrite E1, E2. cbn [orb andb]. unfold scan_step. cbn [in_escape scan0]. rewrite E3, E4, E5. cbn.
  apply IH; [cbn in L; lia|exact F].
Qed.
Lemma plain_line c p : Forall plain_char (c :: p) -> c <> 41 -> ~ UtilsSpec.blank c -> next_code_line (c :: p) = [].
Proof.
  intros F H B. unfold next_code_line, next_expr. rewrite skip_ws_nonblank by exact B.
  assert (E : is_eol (c :: p) = false). { inversion F as [|? ? Hc _]; subst. unfold plain_char in Hc. cbn in Hc. cbn [is_eol]. lia. }
  rewrite E. cbn [hd0]. replace (c =? 41) with false by lia. cbn [orb]. rewrite plain_loop; [reflexivity|cbn [length]; lia|exact F].
Qed.
Lemma writes_first e te : writes e te -> exists c q, te = c :: q /\ term_start c = true.
Proof.
  revert te. induction e as [t|e IH o t]; intros te H; inversion H; subst; [now apply (term_start_ok t)|].
  destruct (IH _ H3) as (c & q & -> & Hc). exists c. eexists. split; [reflexivity|assumption].
Qed.
Lemma blank_plain w : Forall UtilsSpec.blank w -> Forall plain_char w.
Proof. apply Forall_impl. intros c H. unfold UtilsSpec.blank in H. unfold plain_char. cbn. lia. Qed.

Definition same_names (s s0 : st) : Prop := s_args s0 = s_args s /\ s_labels s0 = s_labels s /\ s_defines s0 = s_defines s /\ s_pc s0 = s_pc s.
Lemma meaning_reads C s n k v : meaning C s n k v -> name_ok n ->
  forall s0 names j d, same_names s s0 -> s_erroc s0 = false -> sessions_ok s0 -> names n = Some v -> (k <= j)%nat -> d + Z.of_nat k <= 20 ->
  name_reads C (knot C j) s0 names d n.
Proof.
  induction 1 as [n l Ha Hl|n rf df w1 te w2 e need val v Hr Hd Hda Hdc Hw1 He Hw2 Hpl Hm IH Hv]; intros Hn s0 names j d (Sa & Sl & Sd & Sp) Hec Hs Hnm Hj Hd20.
  - apply resolves_reads; [exact Hn|]. split; [now rewrite Sa|]. rewrite Hnm. exists l. now rewrite Sl.
  - intros r (Hf & Hp). pose proof Hn as (Hu & _ & Hall). unfold parse_name. rewrite skip_name_app by assumption. rewrite seg_app.
    assert (Er : forall q, same_names s0 q -> lookup_ref q rf = Some df).
    { intros q (Q1 & _ & Q3 & _). rewrite <- Hd. destruct rf as [k0|i k0]; cbn [lookup_ref]; [now rewrite Q3, Sd|now rewrite Q1, Sa]. }
    assert (Eg : forall q, same_names s0 q -> get_define rf q = Ok df q) by (intros q Eq; apply get_define_ok; now apply Er).
    apply eqbl_neq in Hu. rewrite Hu. apply Z.eqb_neq in Hp.
    assert (Hgo : forall (K : option label -> option dref -> M (option (list Z * option Z))), K None (Some rf) (at_ s0 d) = (ld <- search_local_defines C n ;;
       lab <- match ld with Some _ => ret None | None => search_labels C n end ;; def <- match ld, lab with None, None => search_defines C n true | _, _ => ret ld end ;; K lab def) (at_ s0 d)).
    { intros K. unfold search_local_defines. rewrite bind_assoc, bind_get. simpl s_args. rewrite bind_ret, Sa. destruct Hr as [Ha|(Ha & Hl & NL & NF & Hr)]; rewrite Ha; [now rewrite !bind_ret|].
      unfold search_labels. rewrite bind_assoc, bind_get. simpl s_labels. rewrite bind_ret, Sl, Hl.
      unfold search_defines. rewrite bind_assoc, bind_get. simpl s_args. rewrite bind_assoc, bind_get. simpl s_defines. rewrite Sa, Sd, Ha. rewrite Hr in Hd. cbn [lookup_ref] in Hd. rewrite Hd.
      apply eqbl_neq in NL. apply eqbl_neq in NF. rewrite NL, NF. rewrite bind_assoc, bind_ret, bind_ret. now rewrite Hr. }
    rewrite <- (Hgo (fun lab def => match lab with Some l => ret (Some (r, Some (l_value l))) | None => _ end)). clear Hgo.
    rewrite Hp, !andb_false_r. cbn [atom_value]. rewrite Hnm. cbn [yields]. unfold parse_define_value.
    assert (Ss : same_names s0 (at_ s0 d)) by (repeat split; reflexivity).
    assert (Ep : parse_args C (knot C j) r rf (at_ s0 d) = Ok (r, None) (at_ s0 d)).
    { unfold parse_args. rewrite (bind_ok _ _ _ _ _ (Eg (at_ s0 d) Ss)). rewrite Hp, Hda. reflexivity. }
    rewrite (bind_ok _ _ _ _ _ Ep). rewrite bind_get. rewrite (bind_ok _ _ _ _ _ (Eg (at_ s0 d) Ss)). rewrite bind_upd.
    unfold start_session. rewrite bind_assoc, bind_get, bind_assoc, bind_upd, bind_ret.
    set (s1 := set_sess (s_sess s0 + 1) (set_line (d_line df) s0)).
    change (set_sess _ _) with (at_ s1 d). change (s_sess (set_line (d_line df) (at_ s0 d)) + 1) with (s_sess s0 + 1). change (s_line (at_ s0 d)) with (s_line s0).
    assert (Ss1 : same_names s0 (at_ s1 d)) by (repeat split; reflexivity).
    destruct (writes_first e te He) as (c & q & Et & Hc). destruct (term_start_facts c Hc) as (N0 & N1 & _).
    assert (C1 : c <> 41 /\ c <> 35) by (split; intros ->; discriminate). destruct C1 as (C41 & C35).
    assert (Eskip : skip_ws (w1 ++ te ++ w2) = te ++ w2) by (rewrite skip_ws_app by exact Hw1; rewrite Et; now apply skip_ws_nonblank).
    assert (Eline : next_code_line (te ++ w2) = []).
    { rewrite Et. cbn [app]. apply plain_line; [|exact C41|exact N0]. change (c :: q ++ w2) with ((c :: q) ++ w2). rewrite <- Et. apply Forall_app. split; [exact Hpl|now apply blank_plain]. }
    assert (Ec : parse_define (knot C j) rf (at_ s1 d) = Ok (Some (te ++ w2)) (at_ s1 d)).
    { unfold parse_define. rewrite (bind_ok _ _ _ _ _ (Eg (at_ s1 d) Ss1)). rewrite Hdc. cbn [parse_define_loop].
      rewrite bind_get. change (s_erroc (at_ s1 d)) with (s_erroc s0). rewrite Hec.
      destruct (w1 ++ te ++ w2) as [|c0 t0] eqn:Eall; [apply app_eq_nil in Eall as (_ & Eall); rewrite Et in Eall; discriminate|]. rewrite Eskip.
      replace (hd0 (te ++ w2) =? 35) with false by (rewrite Et; cbn; lia).
      replace (is_eol (te ++ w2)) with false.
      2:{ rewrite Et. cbn [app]. symmetry. destruct (is_eol (c :: q ++ w2)) eqn:B; [|reflexivity]. apply is_eol_cons in B. contradiction. }
      unfold skip_to_code_line_end. rewrite Eline. unfold seg. cbn [length Nat.leb]. rewrite Nat.sub_0_r, firstn_all. reflexivity. }
    rewrite (bind_ok _ _ _ _ _ Ec).
    destruct j as [|j]; [lia|]. cbn [knot f_full].
    assert (Hread : forall k m d0, mentions m e -> name_ok m -> (need m <= k)%nat -> d0 + Z.of_nat (need m) <= 20 -> name_reads C (knot C k) s1 (fun m => Some (val m)) d0 m).
    { intros k m d0 Hmm Hok Hk Hd0. apply (IH m Hmm Hok); try assumption; try reflexivity.
      - repeat split; assumption.
      - unfold sessions_ok. cbn [s1 s_errs s_sess set_sess set_line]. eapply Forall_impl; [|exact Hs]. cbn. intros; lia. }
    assert (Hex : expr_reads C s1 (fun m => Some (val m)) need (fun m => mentions m e) e) by now apply reads_all.
    pose proof (full_end C s1 (fun m => Some (val m)) need (fun m => mentions m e) Hread e te [] w2 [] j d Hex ltac:(constructor) He Hw2 (fun m Hm => Hm) ltac:(lia) ltac:(lia) eq_refl) as HF.
    change (s_pc s1) with (s_pc s0) in HF. rewrite Sp, Hv in HF. cbn [yields app] in HF. rewrite app_nil_r in HF.
    rewrite bind_assoc. rewrite (bind_ok _ _ _ _ _ HF). rewrite bind_ret. rewrite bind_upd, bind_get.
    destruct (lead_none (s_sess s0) (s_errs s0) Hs) as (L1 & L2).
    change (s_errs (set_line (s_line s0) (at_ s1 d))) with (s_errs s0). unfold err_count. rewrite L1. cbn [filter zlen length]. change (0 <? zlen []) with false. cbv iota. rewrite bind_ret.
    unfold end_session. rewrite bind_assoc, bind_get. change (s_errs (set_line (s_line s0) (at_ s1 d))) with (s_errs s0). rewrite L1, L2. cbn [existsb]. rewrite andb_false_r.
    rewrite bind_assoc, bind_get, bind_assoc, bind_upd, bind_assoc, bind_upd, bind_ret. cbn [remove_arg_set]. rewrite bind_ret. unfold ret. f_equal.
    cbn. rewrite Z.add_simpl_r. destruct s0; reflexivity.
Qed.

(** An expression over labels, defined symbols and unknown names has its meaning. *)
Lemma named_value : forall C n s names need e te w1 w2 rest,
  writes e te -> Forall UtilsSpec.blank w1 -> Forall UtilsSpec.blank w2 -> line_end rest ->
  s_erroc s = false -> sessions_ok s ->
  (wt need e <= 19)%nat -> (wt need e < n)%nat ->
  (forall m, mentions m e -> resolves C s names m \/ exists v, names m = Some v /\ meaning C s m (need m) v) ->
  let result := parse_num (knot C n) (w1 ++ te ++ w2 ++ rest) s in
  match value (c_wrap C) (s_pc s) names e with
  | Val v => result = Ok (Some v) (set_depth 0 (set_fwd false s))
  | Err code => exists d, result = Ok None (noted false code (set_depth d (set_fwd (code =? 262) s)))
  | Undefined => result = Undef UB_overflow
  end.
Proof.
  intros C n s names need e te w1 w2 rest He Hw1 Hw2 Hr Hec Hs Hn19 Hn Hres result. subst result.
  destruct n as [|n]; [lia|]. set (used := fun m => mentions m e).
  assert (Hread : forall k m d, used m -> name_ok m -> (need m <= k)%nat -> d + Z.of_nat (need m) <= 20 -> name_reads C (knot C k) s names d m).
  { intros k m d Hm Hok Hk Hd. destruct (Hres m Hm) as [R|(v & Ev & M)]; [now apply resolves_reads|].
    apply (meaning_reads C s m (need m) v M Hok); auto. repeat split. }
  assert (Hall : expr_reads C s names need used e) by now apply reads_all.
  pose proof (full_end C s names need used Hread e te w1 w2 rest n 0 Hall Hw1 He Hw2 (fun m Hm => Hm) ltac:(lia) ltac:(lia) (line_end_eol _ Hr)) as H.
  unfold parse_num. cbn [knot f_full]. rewrite bind_upd.
  assert (Eq : parse_num_full C (knot C n) (w1 ++ te ++ w2 ++ rest) 0 (set_depth 0 s) =
    parse_num_full C (knot C n) (w1 ++ te ++ w2 ++ rest) 0 (at_ s 0)) by (unfold parse_num_full; rewrite !bind_upd; reflexivity).
  unfold bind. rewrite Eq. destruct (value (c_wrap C) (s_pc s) names e) as [v|code|]; simpl in H.
  - rewrite H. reflexivity.
  - destruct H as (d & ->). exists d. reflexivity.
  - rewrite H. reflexivity.
Qed.

(** ** The text written for a value *)
Lemma hexdig_digit d : 0 <= d < 16 -> digit_value (hexdig d) = Some d.
Proof.
  intros H. assert (K : forallb (fun d => match digit_value (hexdig d) with Some x => x =? d | None => false end)
    (map Z.of_nat (seq 0 16)) = true) by (vm_compute; reflexivity).
  rewrite forallb_forall in K. specialize (K d). destruct (digit_value (hexdig d)) as [x|].
  - f_equal. apply Z.eqb_eq, K. apply in_map_iff. exists (Z.to_nat d). rewrite in_seq. split; lia.
  - discriminate K. apply in_map_iff. exists (Z.to_nat d). rewrite in_seq. split; lia.
Qed.
Lemma hexmin_digits v : 0 <= v -> hexmin v <> [] /\ Forall (digit_of 16) (hexmin v) /\ numeral 16 (hexmin v) = v.
Proof.
  intros H0. split; [now apply hexmin_nonempty|].
  refine (Z_lt_induction (fun v => 0 <= v -> Forall (digit_of 16) (hexmin v) /\ numeral 16 (hexmin v) = v) _ v H0 H0).
  clear. intros v IH H. rewrite hexmin_step by lia. destruct (v <? 16) eqn:E.
  - split.
    + constructor; [|constructor]. exists v. rewrite hexdig_digit by lia. split; [reflexivity|lia].
    + unfold numeral. cbn [fold_left]. rewrite hexdig_digit by lia. lia.
  - destruct (IH (v / 16)) as (F & V); [split; [apply Z.div_pos; lia|apply Z.div_lt; lia]|apply Z.div_pos; lia|].
    assert (B : 0 <= v mod 16 < 16) by (apply Z.mod_pos_bound; lia). split.
    + apply Forall_app. split; [exact F|]. constructor; [|constructor]. exists (v mod 16). rewrite hexdig_digit by lia. split; [reflexivity|lia].
    + rewrite numeral_snoc, V, hexdig_digit by lia. rewrite (Z.div_mod v 16) at 3 by lia. lia.
Qed.
Lemma signed32_small v : 0 <= v <= 2147483647 -> signed32 v = v.
Proof. intros H. unfold signed32. rewrite Z.mod_small by lia. now replace (v <? 2147483648) with true by lia. Qed.
(** The text [eval] writes for a value. *)
Definition hex_text (v : Z) : list Z := if v <? 0 then 45 :: 36 :: hexmin (- v) else 36 :: hexmin v.
Definition hex_expr (v : Z) : expr :=
  Single (if v <? 0 then Leaf Neg (Num (HexDollar (hexmin (- v)))) else Leaf NoSign (Num (HexDollar (hexmin v)))).
Lemma digit_plain b c : digit_of b c -> plain_char c.
Proof.
  intros (d & E & _). unfold digit_value in E. unfold plain_char. cbn.
  destruct ((48 <=? c) && (c <=? 57)) eqn:A; [lia|]. destruct ((65 <=? c) && (c <=? 70)) eqn:B; [lia|]. destruct ((97 <=? c) && (c <=? 102)) eqn:F; [lia|discriminate].
Qed.
Lemma hex_written v : -2147483647 <= v <= 2147483647 ->
  writes (hex_expr v) (hex_text v) /\ Forall plain_char (hex_text v) /\ (forall m, ~ mentions m (hex_expr v)) /\
  (forall need, wt need (hex_expr v) = 0%nat) /\ forall wraps here names, value wraps here names (hex_expr v) = Val v.
Proof.
  intros B. unfold hex_expr, hex_text.
  assert (G : forall u, 0 <= u <= 2147483647 -> literal_ok (HexDollar (hexmin u)) /\ literal_number (HexDollar (hexmin u)) = u /\ Forall plain_char (36 :: hexmin u)).
  { intros u Hu. destruct (hexmin_digits u ltac:(lia)) as (N & F & V). split; [split; [exact N|split; [exact F|exact I]]|]. split; [exact V|].
    apply Forall_cons; [unfold plain_char; cbn; lia|]. eapply Forall_impl; [|exact F]. apply digit_plain. }
  destruct (v <? 0) eqn:E.
  - destruct (G (- v) ltac:(lia)) as (L & V & Pl). split; [constructor; apply (W_leaf Neg [] (Num (HexDollar (hexmin (- v))))); [exact L|constructor|discriminate]|].
    split; [apply Forall_cons; [unfold plain_char; cbn; lia|exact Pl]|]. split; [intros m []|]. split; [reflexivity|]. intros wraps here names.
    cbn [value term_value atom_value]. rewrite V. replace (- v <=? 4294967295) with true by lia. cbn [andthen apply_sign]. rewrite signed32_small by lia.
    unfold fit. replace ((-2147483648 <=? - - v) && (- - v <? 2147483648)) with true by lia. f_equal. lia.
  - destruct (G v ltac:(lia)) as (L & V & Pl). split; [constructor; apply (W_leaf NoSign [] (Num (HexDollar (hexmin v)))); [exact L|constructor|reflexivity]|].
    split; [exact Pl|]. split; [intros m []|]. split; [reflexivity|]. intros wraps here names.
    cbn [value term_value atom_value]. rewrite V. replace (v <=? 4294967295) with true by lia. cbn [andthen apply_sign]. now rewrite signed32_small by lia.
Qed.
Lemma wt_most k need : (forall m, (need m <= k)%nat) -> (forall t, (wt_term need t <= k + wt_term no_need t)%nat) /\ (forall e, (wt need e <= k + wt no_need e)%nat).
Proof.
  intros H. apply term_expr_ind.
  - intros g a. destruct a; cbn; rewrite ?Nat.add_0_r; auto with arith.
  - intros g e IH. cbn [wt_term]. lia.
  - intros t IH. exact IH.
  - intros e IHe o t IHt. cbn [wt]. lia.
Qed.
Lemma wt_none need e : (forall m, mentions m e -> need m = 0%nat) -> wt need e = wt no_need e.
Proof.
  intros H. assert (G : (forall t, (forall m, term_mentions m t -> need m = 0%nat) -> wt_term need t = wt_term no_need t) /\ (forall e, (forall m, mentions m e -> need m = 0%nat) -> wt need e = wt no_need e)).
  { apply term_expr_ind.
    - intros g a Hm. destruct a; cbn; auto. apply Hm. reflexivity.
    - intros g u IH Hm. cbn [wt_term]. now rewrite IH.
    - intros t IH. exact IH.
    - intros u IHe o t IHt Hm. cbn [wt]. rewrite IHe, IHt; auto; intros m Hmm; apply Hm; cbn; auto. }
  now apply G.
Qed.
