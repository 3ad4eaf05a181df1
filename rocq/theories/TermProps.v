(** Termination of expressions: C04. *)
From Verif Require Import Base BaseProofs State MonadProofs UtilsModel ErrorsModel StorageModel ParserModel Knot MainModel
  UtilsSpec UtilsProofs PassTwoSpec StorageProofs ParserSpec ParserProofs ParserProps Validate Programs.

(** ** Parts of texts *)
Definition subtext (n t : text) : Prop := exists a b, t = a ++ n ++ b.
Definition suf (q p : text) : Prop := exists a, p = a ++ q.
Lemma suf_refl p : suf p p. Proof. now exists []. Qed.
Lemma suf_trans a b c : suf a b -> suf b c -> suf a c.
Proof. intros (x & ->) (y & ->). exists (y ++ x). now rewrite app_assoc. Qed.
Lemma suf_cons c p q : suf q p -> suf q (c :: p). Proof. intros (a & ->). now exists (c :: a). Qed.
Lemma suf_tl p : suf (tl p) p. Proof. destruct p as [|c p]; [apply suf_refl|apply suf_cons, suf_refl]. Qed.
Lemma suf_len q p : suf q p -> (length q <= length p)%nat. Proof. intros (a & ->). rewrite app_length. lia. Qed.
Lemma suf_sub n q p : suf q p -> subtext n q -> subtext n p.
Proof. intros (a & ->) (b & c & ->). exists (a ++ b), c. now rewrite !app_assoc. Qed.
Lemma suf_skip_ws p : suf (skip_ws p) p.
Proof. induction p as [|c p IH]; cbn; [apply suf_refl|]. destruct (is_blank c); [now apply suf_cons|apply suf_refl]. Qed.
Lemma suf_name p : suf (skip_to_name_end p) p.
Proof. induction p as [|c p IH]; cbn; [apply suf_refl|]. destruct (is_name_char c); [now apply suf_cons|apply suf_refl]. Qed.
Lemma suf_alnum p : suf (skip_alnum p) p.
Proof. induction p as [|c p IH]; cbn; [apply suf_refl|]. destruct (isalnum c); [now apply suf_cons|apply suf_refl]. Qed.
Lemma suf_last p : suf (last_alnum p) p.
Proof.
  induction p as [|c p IH]; [apply suf_refl|]. cbn [last_alnum]. destruct p as [|d p]; [apply suf_refl|].
  destruct (isalnum d); [apply suf_cons, IH|apply suf_refl].
Qed.
Lemma suf_plus p : forall n, suf (fst (count_plus p n)) p.
Proof. induction p as [|c p IH]; intros n; cbn; [apply suf_refl|]. destruct (c =? 43); [apply suf_cons, IH|apply suf_refl]. Qed.
Lemma suf_minus p : forall n, suf (fst (count_minus p n)) p.
Proof. induction p as [|c p IH]; intros n; cbn; [apply suf_refl|]. destruct (_ && _); [apply suf_cons, IH|apply suf_refl]. Qed.
Lemma suf_skipn n p : suf (skipn n p) p.
Proof. exists (firstn n p). now rewrite firstn_skipn. Qed.
Lemma seg_sub q p : suf q p -> subtext (seg p q) p.
Proof. intros (a & ->). exists [], q. rewrite seg_app. reflexivity. Qed.
Lemma op_shorter p o q : match_op math_defs p = Some (o, q) -> suf q p /\ (length q < length p)%nat.
Proof.
  assert (G : forall defs, Forall (fun d => snd d <> []) defs -> match_op defs p = Some (o, q) -> suf q p /\ (length q < length p)%nat).
  { induction 1 as [|[o0 d] defs Hd F IH]; [discriminate|]. cbn [match_op]. destruct (prefixb d p) eqn:B; [|exact IH].
    intros E. injection E as _ <-. split; [apply suf_skipn|]. rewrite skipn_length. destruct d as [|c d]; [now contradiction Hd|].
    destruct p as [|c0 p]; [discriminate|]. cbn [length]. lia. }
  apply G. unfold math_defs. repeat (apply Forall_cons; [vm_compute; discriminate|]). apply Forall_nil.
Qed.

(** ** Commands that end and leave defines and macro arguments alone *)
Section Ends.
Variable C : cfg.
Variables (A : list (nat * list (text * define))) (D : list (text * define)).
Definition frame (s : st) : Prop := s_args s = A /\ s_defines s = D.
Definition ends {X} (m : M X) (post : X -> Prop) : Prop :=
  forall s, frame s -> match m s with Ok a s' => frame s' /\ post a | NoFuel => False | _ => True end.
Lemma ends_ret {X} (a : X) (post : X -> Prop) : post a -> ends (ret a) post. Proof. intros H s F. cbn. auto. Qed.
Lemma ends_bind {X Y} (m : M X) (k : X -> M Y) P Q : ends m P -> (forall a, P a -> ends (k a) Q) -> ends (bind m k) Q.
Proof.
  intros H1 H2 s F. specialize (H1 s F). unfold bind. destruct (m s) as [a s'|c s'|w|]; try exact H1. destruct H1 as (F' & Pa). now apply H2.
Qed.
Lemma ends_get {X} (f : st -> X) (P : X -> Prop) : (forall s, frame s -> P (f s)) -> ends (get f) P.
Proof. intros H s F. cbn. auto. Qed.
Lemma ends_upd (f : st -> st) (P : unit -> Prop) : (forall s, frame s -> frame (f s)) -> P tt -> ends (upd f) P.
Proof. intros H Pt s F. cbn. auto. Qed.
Lemma ends_weak {X} (m : M X) (P Q : X -> Prop) : (forall a, P a -> Q a) -> ends m P -> ends m Q.
Proof. intros H E s F. specialize (E s F). destruct (m s); try exact E. destruct E; auto. Qed.
Lemma ends_undef {X} w (P : X -> Prop) : ends (undef w) P. Proof. intros s F. exact I. Qed.
Definition any {X} (_ : X) : Prop := True.
Lemma ends_problem w c : ends (set_problem w c) any.
Proof. unfold set_problem. intros s F. vm_compute. destruct F. auto. Qed.
Lemma ends_raise c : ends (raise_exit c) any. Proof. intros s F. cbn. destruct F. split; [split; assumption|exact I]. Qed.
Lemma ends_int_res z : ends (int_res C z) any.
Proof. unfold int_res. destruct (in_int z); [now apply ends_ret|]. destruct (c_wrap C); [now apply ends_ret|apply ends_undef]. Qed.
Lemma ends_conv b c s e : ends (conv_generic b c s e) any.
Proof.
  unfold conv_generic. destruct (strtoll b s) as [v ep]. destruct (Nat.ltb _ _); [eapply ends_bind; [apply ends_problem|intros; now apply ends_ret]|].
  destruct (_ || _); [eapply ends_bind; [apply ends_problem|intros; now apply ends_ret]|now apply ends_ret].
Qed.
Lemma ends_apply o t n : ends (apply_op C o t n) any.
Proof.
  destruct o; cbn [apply_op]; try (now apply ends_ret); try apply ends_int_res; match goal with |- context [if ?b then _ else _] => destruct b end; try apply ends_undef; now apply ends_ret.
Qed.
Definition within {X} (p : text) (r : option (text * X)) : Prop := match r with Some (q, _) => suf q p | None => True end.
Lemma within_suf {X} p q (r : option (text * X)) : suf q p -> within q r -> within p r.
Proof. destruct r as [[u x]|]; [|auto]. intros S H. cbn in *. eapply suf_trans; eauto. Qed.
Lemma ends_error {X} c p : ends (set_error c ;;; ret (None : option (text * X))) (within p).
Proof. eapply ends_bind; [apply ends_problem|]. intros; now apply ends_ret. Qed.
Lemma ends_reus i : ends (search_reusables i) any.
Proof.
  unfold search_reusables. eapply ends_bind; [apply (ends_get _ any); intros; exact I|]. intros total _. eapply ends_bind; [apply (ends_get _ any); intros; exact I|]. intros l _.
  destruct (_ || _); [eapply ends_bind; [apply ends_raise|]; intros; now apply ends_ret|]. destruct (i <? 0); [apply ends_undef|now apply ends_ret].
Qed.
Lemma ends_curr : ends get_curr_reusable any.
Proof. unfold get_curr_reusable. eapply ends_bind; [apply (ends_get _ any); intros; exact I|]. intros; now apply ends_ret. Qed.
Lemma ends_op : forall f depth p, (length p < f)%nat -> ends (get_op f depth p)
  (fun o => match o with OpEnd q => suf q p | OpClose q => suf q p | OpNext _ q => suf q p /\ (length q < length p)%nat | OpBad => True end).
Proof.
  induction f as [|f IH]; intros depth p L; [lia|]. cbn [get_op]. pose proof (suf_skip_ws p) as Sp. pose proof (suf_len _ _ Sp) as Lp. set (u := skip_ws p) in *. clearbody u. cbv zeta.
  destruct (is_eol u).
  { eapply ends_bind; [instantiate (1 := any); destruct (0 <? depth); [apply ends_raise|now apply ends_ret]|]. intros _ _. now apply ends_ret. }
  destruct (match_op math_defs u) as [[o q]|] eqn:E.
  - destruct (op_shorter _ _ _ E) as (S1 & L1). pose proof (suf_skip_ws q) as S2. pose proof (suf_len _ _ S2) as L2. destruct (skip_ws q) as [|c q'] eqn:Eq.
    + eapply ends_bind; [apply ends_problem|]. intros; now apply ends_ret.
    + apply ends_ret. split; [eapply suf_trans; [exact S2|]; eapply suf_trans; eauto|lia].
  - destruct (hd0 u =? 41) eqn:H41.
    + destruct (0 <? depth).
      * apply ends_ret. eapply suf_trans; [apply suf_skip_ws|]. eapply suf_trans; [apply suf_tl|exact Sp].
      * eapply ends_bind; [apply ends_raise|]. intros _ _. destruct u as [|c u']; [discriminate|]. cbn [tl]. cbn in Lp.
        eapply ends_weak; [|apply IH; lia]. assert (S3 : suf u' p) by (eapply suf_trans; [|exact Sp]; apply suf_cons, suf_refl).
        intros [q|q|o q|]; try (intros Hq; eapply suf_trans; eauto; fail); [|auto]. intros (Hq & Hl). split; [eapply suf_trans; eauto|pose proof (suf_len _ _ Hq); cbn in Lp; lia].
    + eapply ends_bind; [apply ends_problem|]. intros; now apply ends_ret.
Qed.

(** No part of the text is the name of a macro argument or a define, or a call of getc. *)
Definition macro_free (t : text) : Prop :=
  forall n, subtext n t -> find_arg (key C n) A = None /\ tfind (key C n) D = None /\ eqbl_ci n (zs "getc") = false.
Lemma macro_free_suf q p : suf q p -> macro_free p -> macro_free q.
Proof. intros S H n Hn. apply H. eapply suf_sub; eauto. Qed.
Lemma ends_local n (P : option dref -> Prop) : find_arg (key C n) A = None -> P None -> ends (search_local_defines C n) P.
Proof.
  intros H Pn. unfold search_local_defines. eapply ends_bind; [apply (ends_get _ (fun a => a = A)); intros s (-> & _); reflexivity|].
  intros a ->. rewrite H. now apply ends_ret.
Qed.
Lemma ends_defines n (P : option dref -> Prop) : find_arg (key C n) A = None -> tfind (key C n) D = None -> P None -> ends (search_defines C n true) P.
Proof.
  intros Ha Hd Pn. unfold search_defines. eapply ends_bind; [apply (ends_get _ (fun a => a = A)); intros s (-> & _); reflexivity|]. intros a ->.
  eapply ends_bind; [apply (ends_get _ (fun a => a = D)); intros s (_ & ->); reflexivity|]. intros d ->. cbv zeta iota. rewrite Ha, Hd.
  eapply ends_bind; [|intros _ _; now apply ends_ret]. instantiate (1 := any).
  destruct (eqbl _ _); [eapply ends_bind; [apply (ends_get _ any); intros; exact I|]; intros; now apply ends_ret|].
  destruct (eqbl _ _); [eapply ends_bind; [apply (ends_get _ any); intros; exact I|]; intros; now apply ends_ret|]. now apply ends_ret.
Qed.

Section Level.
Variable R : fns.
Variable N : nat.
Hypothesis IHfull : forall p depth, (length p < N)%nat -> macro_free p -> ends (f_full R p depth) (within p).
Lemma ends_full_opt {X} p depth q (k : option (text * Z) -> option (text * X)) : suf p q -> (length p < N)%nat -> macro_free p ->
  (forall r, within q r -> within q (k r)) -> ends (r <- f_full R p depth ;; ret (k r)) (within q).
Proof. intros S L H K. eapply ends_bind; [now apply IHfull|]. intros r Hr. apply ends_ret. apply K. eapply within_suf; eauto. Qed.
Lemma name_shorter p : isalpha (hd0 p) || (hd0 p =? 95) = true -> (length (skip_to_name_end p) < length p)%nat.
Proof.
  intros H. destruct p as [|c p]; [discriminate|]. cbn in H. cbn [skip_to_name_end length].
  assert (E : is_name_char c = true). { unfold is_name_char, isalnum. apply orb_true_iff in H as [->|H]; [reflexivity|]. replace c with 95 by lia. reflexivity. }
  rewrite E. pose proof (suf_len _ _ (suf_name p)). lia.
Qed.
Lemma ends_name p : (length p <= N)%nat -> macro_free p -> isalpha (hd0 p) || (hd0 p =? 95) = true -> ends (parse_name C R p) (within p).
Proof.
  intros L H Hc. unfold parse_name. pose proof (suf_name p) as Sq. pose proof (name_shorter p Hc) as Lq. cbv zeta. set (q := skip_to_name_end p) in *. clearbody q. pose proof (H _ (seg_sub q p Sq)) as (Ha & Hd & Hg). set (n := seg p q) in *. clearbody n.
  eapply ends_bind; [apply (ends_local n (fun r => r = None) Ha eq_refl)|]. intros ? ->.
  eapply ends_bind; [unfold search_labels; instantiate (1 := any); eapply ends_bind; [apply (ends_get _ any); intros; exact I|]; intros; now apply ends_ret|]. intros lab _.
  eapply ends_bind; [instantiate (1 := fun d => d = None); destruct lab; [now apply ends_ret|now apply ends_defines]|]. intros ? ->.
  destruct (eqbl n (zs "_")).
  { eapply ends_bind; [apply ends_curr|]. intros cur _. eapply ends_bind; [apply (ends_get _ any); intros; exact I|]. intros total _.
    destruct (_ <? _); [|apply ends_error]. eapply ends_bind; [apply ends_reus|]. intros v _. now apply ends_ret. }
  destruct lab as [l|]; [now apply ends_ret|].
  destruct (eqbl_ci n (zs "eval") && (hd0 q =? 40)).
  { apply (ends_full_opt q 0 p (fun r => match r with Some (q0, v) => Some (q0, Some v) | None => None end)); [exact Sq|lia|now apply macro_free_suf with p|].
    intros [[u v]|]; auto. }
  rewrite Hg. cbn [andb]. eapply ends_bind; [apply ends_problem|]. intros _ _. eapply ends_bind; [apply (ends_upd _ any); [intros s (E1 & E2); split; assumption|exact I]|]. intros; now apply ends_ret.
Qed.
Lemma ends_escape c : ends (char_escape C c) any.
Proof.
  unfold char_escape. cbv zeta. repeat match goal with |- context [if ?b then _ else _] => destruct b; [try now apply ends_ret|] end; [|now apply ends_ret].
  unfold next_rand. eapply ends_bind; [instantiate (1 := any)|intros r _; now apply ends_ret]. eapply ends_bind; [apply (ends_get _ any); intros; exact I|]. intros n _.
  eapply ends_bind; [apply (ends_upd _ any); [intros s (E1 & E2); split; assumption|exact I]|]. intros; now apply ends_ret.
Qed.
Lemma ends_single p : (length p <= N)%nat -> macro_free p -> ends (parse_single C R p) (within p).
Proof.
  intros L H. unfold parse_single. cbv zeta. pose proof (suf_tl p) as St.
  assert (NR : forall q (v : option Z), suf q p -> within p (num_result q v)) by (intros q [v|] Hq; cbn; auto).
  destruct (hd0 p =? 43).
  { eapply ends_bind; [apply ends_curr|]. intros cur _. pose proof (suf_plus p cur) as Sq. destruct (count_plus p cur) as [q i]. cbn [fst] in Sq.
    destruct (negb _); [apply ends_error|]. eapply ends_bind; [apply (ends_get _ any); intros; exact I|]. intros total _. destruct (_ <=? _); [apply ends_error|].
    eapply ends_bind; [apply ends_reus|]. intros v _. apply ends_ret. cbn. eapply suf_trans; [apply suf_tl|exact Sq]. }
  destruct (hd0 p =? 45).
  { eapply ends_bind; [apply ends_curr|]. intros cur _. pose proof (suf_minus (tl p) cur) as Sq. destruct (count_minus (tl p) cur) as [q i]. cbn [fst] in Sq.
    destruct (_ || _); [apply ends_error|]. eapply ends_bind; [apply ends_reus|]. intros v _. apply ends_ret. cbn. eapply suf_trans; [apply suf_tl|]. eapply suf_trans; eauto. }
  destruct (hd0 p =? 36).
  { destruct (isxdigit _).
    - eapply ends_bind; [apply ends_conv|]. intros v _. apply ends_ret, NR. eapply suf_trans; [apply suf_alnum|exact St].
    - eapply ends_bind; [apply (ends_get _ any); intros; exact I|]. intros; now apply ends_ret. }
  destruct (hd0 p =? 37).
  { eapply ends_bind; [apply ends_conv|]. intros v _. apply ends_ret, NR. eapply suf_trans; [apply suf_alnum|exact St]. }
  destruct (hd0 p =? 39).
  { destruct (tl p) as [|c1 p1] eqn:E1; [apply ends_undef|].
    eapply ends_bind; [instantiate (1 := fun r => suf (snd r) p)|].
    - destruct (c1 =? 92).
      + destruct p1 as [|c2 p2]; [apply ends_undef|]. eapply ends_bind; [apply ends_escape|]. intros v _. apply ends_ret. cbn. eapply suf_trans; [|exact St]. apply suf_cons, suf_cons, suf_refl.
      + apply ends_ret. cbn. eapply suf_trans; [|exact St]. apply suf_cons, suf_refl.
    - intros [v e] Se. cbn in Se. destruct (hd0 e =? 39); [apply ends_ret; cbn; eapply suf_trans; [apply suf_tl|exact Se]|].
      eapply ends_bind; [apply ends_raise|]. intros; now apply ends_ret. }
  destruct (isalpha (hd0 p) || (hd0 p =? 95)) eqn:Ha; [now apply ends_name|].
  destruct (isdigit (hd0 p)); [|apply ends_error].
  eapply ends_bind; [instantiate (1 := any); repeat match goal with |- context [if ?b then _ else _] => destruct b end; apply ends_conv|].
  intros v _. apply ends_ret, NR. eapply suf_trans; [apply suf_tl|apply suf_last].
Qed.
Lemma suf_unary p : suf (snd (unary p)) p.
Proof.
  unfold unary. cbv zeta. destruct (hd0 p =? 126); [cbn; eapply suf_trans; [apply suf_skip_ws|apply suf_tl]|].
  destruct (_ && _); [cbn; eapply suf_trans; [apply suf_skip_ws|apply suf_tl]|apply suf_refl].
Qed.
Lemma ends_loop : forall f depth total op ln p, (length p < f)%nat -> (length p <= N)%nat -> macro_free p -> ends (num_loop C R f depth total op ln p) (within p).
Proof.
  induction f as [|f IH]; intros depth total op ln p L LN H; [lia|]. cbn [num_loop]. pose proof (suf_unary p) as Su. destruct (unary p) as [[inv neg] u]. cbn [snd] in Su. pose proof (suf_len _ _ Su) as Lu.
  pose proof (macro_free_suf _ _ Su H) as Hu.
  eapply ends_bind; [instantiate (1 := within u)|].
  - destruct (hd0 u =? 40) eqn:H40; [|apply ends_single; [lia|exact Hu]]. destruct u as [|c u]; [discriminate|]. cbn [tl]. cbn in Lu.
    assert (S1 : suf u (c :: u)) by apply suf_cons, suf_refl.
    apply (ends_full_opt u (depth + 1) (c :: u) (fun r => match r with Some (q0, v) => Some (q0, Some v) | None => None end)); [exact S1|lia|now apply macro_free_suf with (c :: u)|].
    intros [[q v]|]; auto.
  - intros [[q v]|] Hq; [|now apply ends_ret]. cbn in Hq. destruct (match v with Some _ => v | None => ln end) as [n|]; [|apply ends_undef]. cbv zeta.
    eapply ends_bind; [instantiate (1 := any); destruct neg; [apply ends_int_res|now apply ends_ret]|]. intros n1 _.
    destruct (_ && _); [apply ends_error|]. destruct (_ && _); [apply ends_error|].
    eapply ends_bind; [apply ends_apply|]. intros t1 _. pose proof (suf_trans _ _ _ Hq Su) as Sq. pose proof (suf_len _ _ Sq) as Lq.
    eapply ends_bind; [apply ends_op; lia|]. intros [e|e|o e|] He; [| | |now apply ends_ret].
    + eapply ends_bind; [instantiate (1 := any)|intros _ _; apply ends_ret; cbn; eapply suf_trans; eauto].
      unfold dec_depth. eapply ends_bind; [apply (ends_get _ any); intros; exact I|]. intros d _. apply ends_upd; [intros s (E1 & E2); split; assumption|exact I].
    + eapply ends_bind; [instantiate (1 := any)|intros _ _; apply ends_ret; cbn; eapply suf_trans; eauto].
      unfold dec_depth. eapply ends_bind; [apply (ends_get _ any); intros; exact I|]. intros d _. apply ends_upd; [intros s (E1 & E2); split; assumption|exact I].
    + destruct He as (Se & Le). assert (S2 : suf e p) by (eapply suf_trans; eauto). eapply ends_weak; [intros r Hr; exact (within_suf _ _ r S2 Hr)|].
      apply IH; [lia|lia|now apply macro_free_suf with p].
Qed.
Lemma ends_full p depth : (length p <= N)%nat -> macro_free p -> ends (parse_num_full C R p depth) (within p).
Proof.
  intros L H. unfold parse_num_full. eapply ends_bind; [apply (ends_upd _ any); [intros s (E1 & E2); split; assumption|exact I]|]. intros _ _.
  eapply ends_bind; [apply (ends_get _ any); intros; exact I|]. intros d _. eapply ends_bind; [apply (ends_upd _ any); [intros s (E1 & E2); split; assumption|exact I]|]. intros _ _.
  destruct (_ <? _); [apply ends_error|]. pose proof (suf_skip_ws p) as Sp. pose proof (suf_len _ _ Sp). destruct (skip_ws p) as [|c u] eqn:E; [apply ends_error|].
  eapply ends_weak; [intros r Hr; exact (within_suf _ _ r Sp Hr)|]. apply ends_loop; [lia|lia|now apply macro_free_suf with p].
Qed.
End Level.
Lemma ends_knot : forall n p depth, (length p < n)%nat -> macro_free p -> ends (f_full (knot C n) p depth) (within p).
Proof.
  induction n as [|n IH]; intros p depth L H; [lia|]. cbn [knot f_full]. apply (ends_full (knot C n) n); [exact IH|lia|exact H].
Qed.
End Ends.

(** Whatever the text is - an expression or not - and however deep it nests, evaluating it ends: with a
    value, with an error recorded, or (C01) with an operation that C leaves undefined; and at most one call
    more than the text has characters is ever open. *)
Theorem c04_terminates : forall C n s t, macro_free C (s_args s) (s_defines s) t -> (length t < n)%nat -> parse_num (knot C n) t s <> NoFuel.
Proof.
  intros C n s t H L E. unfold parse_num in E. rewrite bind_upd in E.
  pose proof (ends_knot C (s_args s) (s_defines s) n t 0 L H (set_depth 0 s) (conj eq_refl eq_refl)) as G. unfold bind in E.
  destruct (f_full (knot C n) t 0 (set_depth 0 s)); try discriminate. exact G.
Qed.
Print Assumptions c04_terminates.

(** All parts of a text, to decide [macro_free]. *)
Definition parts (t : text) : list text :=
  flat_map (fun i => map (fun j => firstn j (skipn i t)) (seq 0 (S (length t)))) (seq 0 (S (length t))).
Lemma parts_all n t : subtext n t -> In n (parts t).
Proof.
  intros (a & b & ->). unfold parts. apply in_flat_map. exists (length a). rewrite !app_length. split; [apply in_seq; lia|].
  apply in_map_iff. exists (length n). split; [|apply in_seq; lia]. rewrite skipn_app, skipn_all, Nat.sub_diag. cbn [skipn app]. rewrite firstn_app, firstn_all, Nat.sub_diag. cbn. apply app_nil_r.
Qed.
Definition macro_freeb (C : cfg) (s : st) (t : text) : bool :=
  forallb (fun n => match find_arg (key C n) (s_args s), tfind (key C n) (s_defines s) with None, None => negb (eqbl_ci n (zs "getc")) | _, _ => false end) (parts t).
Lemma macro_freeb_ok C s t : macro_freeb C s t = true -> macro_free C (s_args s) (s_defines s) t.
Proof.
  intros H n Hn. unfold macro_freeb in H. rewrite forallb_forall in H. specialize (H n (parts_all n t Hn)). cbv beta in H.
  destruct (find_arg _ _); [discriminate|]. destruct (tfind _ _); [discriminate|]. destruct (eqbl_ci _ _); [discriminate|]. auto.
Qed.
(** The built-in defines, and a text that is not an expression at all: it ends with an error. Twenty
    parentheses end with the recursion error, nineteen do not. *)
Example c04_case :
  let s := set_defines (init_defines (zs "a.asm")) blank in let C := mkconf (world_of []) args0 in
  let run t := match parse_num (knot C 40) t s with Ok v s' => Some (v, map e_code (s_errs s')) | _ => None end in
  macro_free C (s_args s) (s_defines s) (zs "(1+(lab)) )) * eval(-$5) %") /\
  parse_num (knot C 40) (zs "(1+(lab)) )) * eval(-$5) %") s <> NoFuel /\
  run (zs "(1+(2)) )) * eval(-$5) %") = Some (None, [260]) /\
  run (repeat 40 20 ++ zs "1") = Some (None, [277]) /\
  run (repeat 40 19 ++ zs "1") = Some (Some 1, []).
Proof.
  intros s C run. assert (H : macro_free C (s_args s) (s_defines s) (zs "(1+(lab)) )) * eval(-$5) %")) by (apply macro_freeb_ok; vm_compute; reflexivity).
  split; [exact H|]. split; [apply c04_terminates; [exact H|vm_compute; lia]|]. repeat split; vm_compute; reflexivity.
Qed.
