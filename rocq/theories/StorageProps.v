(** Symbol storage: C19 to C23. *)
From Coq Require Import Sorting.Sorted Permutation.
From Verif Require Import Base BaseProofs State MonadProofs UtilsModel ErrorsModel StorageModel ParserModel MainModel
  StorageSpec StorageProofs.

(** * Histories from the start of a run *)

Lemma first_rep C s f : s_labels s = [] -> s_defines s = init_defines f -> s_args s = [] -> s_exitc s = 0 ->
  rep C s (first_names (c_case C)).
Proof.
  intros H1 H2 H3 H4. constructor.
  - rewrite H1. constructor.
  - rewrite H1. reflexivity.
  - rewrite H2. unfold init_defines, builtin_define. split; [repeat apply tset_ok; constructor|].
    intros n. unfold first_names. cbn [n_defines]. rewrite !tfind_tset. cbn [tfind].
    unfold builtins, builtin_of. rewrite !same_name_key.
    unfold key. destruct (c_case C); cbv iota.
    + repeat match goal with |- context [eqbl n ?k] =>
        let H := fresh in destruct (eqbl n k) eqn:H; [apply eqbl_eq in H; subst n; reflexivity|] end. reflexivity.
    + repeat match goal with |- context [strup (zs ?x)] => change (strup (zs x)) with (zs x) end.
      generalize (strup n). intros m.
      repeat match goal with |- context [eqbl m ?k] =>
        let H := fresh in destruct (eqbl m k) eqn:H; [apply eqbl_eq in H; subst m; reflexivity|] end. reflexivity.
  - rewrite H3. constructor.
  - rewrite H3. constructor.
  - rewrite H3. constructor.
  - exact H4.
Qed.

(** What a lookup finds agrees with the specification. *)
Definition lookups_agree (C : cfg) (s : st) (ns : names) : Prop :=
  (forall n, exists r, search_labels C n s = Ok r s /\ option_map l_value r = n_labels ns n) /\
  (forall n, ordinary (c_case C) n -> exists r, search_defines C n true s = Ok r s /\
     match r with
     | Some r => exists d, lookup_ref s r = Some d /\ meaning ns n = Some (mkentry (d_contents d) (d_args d))
     | None => meaning ns n = None
     end) /\
  s_exitc s = n_status ns.

Lemma rep_agree C s ns : rep C s ns -> lookups_agree C s ns.
Proof.
  intros R. split; [|split].
  - intros n. unfold search_labels. eexists. split; [reflexivity|]. symmetry. apply R.
  - intros n Hn. exists (found C s n). split; [now apply search_defines_ok|]. now apply found_meaning.
  - apply R.
Qed.

(** C19, C20, C21.  Every history of label definitions, defines, undefines and macro calls from the
    start of a run leaves the tables such that looking up any label or define, in any
    spelling, gives exactly what the history of the specification says, and the exit status
    is the specified one. *)
Theorem c19_c20_c21_names : forall C f l s,
  s_labels s = [] -> s_defines s = init_defines f -> s_args s = [] -> s_exitc s = 0 ->
  balanced 0 l -> Forall (op_ordinary (c_case C)) l ->
  exists s', do_names C l s = Ok tt s' /\
    lookups_agree C s' (names_run (c_case C) (c_counter C) l (first_names (c_case C))).
Proof.
  intros C f l s H1 H2 H3 H4 Hb Ho.
  destruct (do_names_ok C l 0 s (first_names (c_case C))) as (s' & E & R); auto.
  - now apply first_rep with (f := f).
  - exists s'. split; [exact E|]. now apply rep_agree.
Qed.

(** C21.  A stretch of macro calls, however nested, leaves the meaning of every name as it
    was; and inside a call its own parameters have the texts given. *)
Lemma calls_keep cs counting : forall l d ns inner outer, n_scopes ns = inner ++ outer -> length inner = d ->
  calls_only d l -> let ns' := names_run cs counting l ns in
  n_scopes ns' = outer /\ n_defines ns' = n_defines ns.
Proof.
  induction l as [|o l IH]; intros d ns inner outer Hs Hd Hc.
  - simpl in *. subst. destruct inner; [|discriminate]. split; [exact Hs|reflexivity].
  - cbn [names_run fold_left]. destruct o as [n v|n t|n| |n t|]; cbn [calls_only] in Hc; try contradiction.
    + cbn [name_step]. destruct counting.
      * now apply (IH d ns inner outer).
      * destruct (meaning ns n).
        -- match goal with |- context [fold_left _ l ?x] => apply (IH d x inner outer) end; assumption.
        -- match goal with |- context [fold_left _ l ?x] => apply (IH d x inner outer) end; assumption.
    + match goal with |- context [fold_left _ l ?x] => apply (IH (S d) x ((fun _ => None) :: inner) outer) end;
        simpl; [now rewrite Hs|now rewrite Hd|assumption].
    + destruct Hc as [Hp Hc]. destruct inner as [|f inner]; [simpl in *; lia|].
      cbn [name_step]. rewrite Hs. cbn [app].
      match goal with |- context [fold_left _ l ?x] =>
        apply (IH d x (bind_name cs n (Some (mkentry t [])) f :: inner) outer) end; auto.
    + destruct d as [|d]; [contradiction|]. destruct inner as [|f inner]; [discriminate|].
      cbn [name_step]. rewrite Hs. cbn [app tl].
      match goal with |- context [fold_left _ l ?x] => apply (IH d x inner outer) end; auto.
Qed.

Definition params (l : list (text * option text)) : list name_op := map (fun p => NParam (fst p) (snd p)) l.
(** The text given to parameter [n]: the last one given. *)
Fixpoint param_of (cs : bool) (n : text) (l : list (text * option text)) : option (option text) :=
  match l with
  | [] => None
  | (m, t) :: l' => match param_of cs n l' with Some r => Some r | None => if same_name cs n m then Some t else None end
  end.
Lemma params_scope cs counting : forall ps ns f outer, n_scopes ns = f :: outer ->
  exists g, n_scopes (names_run cs counting (params ps) ns) = g :: outer /\
    (forall n, g n = match param_of cs n ps with Some t => Some (mkentry t []) | None => f n end) /\
    n_labels (names_run cs counting (params ps) ns) = n_labels ns /\
    n_defines (names_run cs counting (params ps) ns) = n_defines ns.
Proof.
  induction ps as [|[m t] ps IH]; intros ns f outer Hs.
  - exists f. auto.
  - cbn [params map fst snd]. unfold names_run. cbn [fold_left name_step]. rewrite Hs.
    edestruct (IH (mknames (n_labels ns) (n_defines ns) (bind_name cs m (Some (mkentry t [])) f :: outer) (n_status ns)))
      as (g & E & Hg & El & Ed); [reflexivity|].
    exists g. split; [exact E|]. split; [|split; [exact El|exact Ed]].
    intros n. rewrite Hg. cbn [param_of]. destruct (param_of cs n ps); [reflexivity|].
    unfold bind_name. now destruct (same_name cs n m).
Qed.

Lemma names_run_app cs counting a b ns :
  names_run cs counting (a ++ b) ns = names_run cs counting b (names_run cs counting a ns).
Proof. unfold names_run. apply fold_left_app. Qed.

Theorem c21_scopes :
  (* what holds after any history, run on the tables *)
  (forall C l s ns, rep C s ns -> balanced (length (n_scopes ns)) l -> Forall (op_ordinary (c_case C)) l ->
     exists s', do_names C l s = Ok tt s' /\ lookups_agree C s' (names_run (c_case C) (c_counter C) l ns)) /\
  (* calls restore every meaning *)
  (forall cs counting calls ns n, calls_only 0 calls ->
     meaning (names_run cs counting calls ns) n = meaning ns n) /\
  (* inside a call its parameters are visible first, other names keep their meaning *)
  (forall cs counting ps ns n,
     meaning (names_run cs counting (NOpen :: params ps) ns) n =
     match param_of cs n ps with Some t => Some (mkentry t []) | None => meaning ns n end).
Proof.
  split; [|split].
  - intros C l s ns R Hb Ho. destruct (do_names_ok C l _ s ns R eq_refl Hb Ho) as (s' & E & R').
    exists s'. split; [exact E|]. now apply rep_agree.
  - intros cs counting calls ns n H. destruct (calls_keep cs counting calls 0 ns [] (n_scopes ns) eq_refl eq_refl H) as [E1 E2].
    unfold meaning. now rewrite E1, E2.
  - intros cs counting ps ns n. change (NOpen :: params ps) with ([NOpen] ++ params ps). rewrite names_run_app.
    edestruct (params_scope cs counting ps (names_run cs counting [NOpen] ns)) as (g & E & Hg & El & Ed); [reflexivity|].
    unfold meaning. rewrite E, Ed. cbn [in_scopes]. rewrite Hg.
    destruct (param_of cs n ps); reflexivity.
Qed.
(* the hypotheses of the first part are reachable: *)
Example c19_history :
  let l := [NLabel (zs "start") 16; NOpen; NParam (zs "x") (Some (zs "5")); NDefine (zs "X") (zs "6");
            NDefine (zs "foo") (zs "7"); NLabel (zs "FOO") 1; NClose; NUndef (zs "Foo"); NLabel (zs "START") 17] in
  balanced 0 l /\ Forall (op_ordinary false) l /\
  let ns := names_run false false l (first_names false) in
  (n_labels ns (zs "Start"), meaning ns (zs "foo"), meaning ns (zs "x"), n_status ns) = (Some 17, None, None, 2).
Proof. repeat split; repeat constructor; discriminate. Qed.
Example c21_nested_calls : calls_only 0
  ([NOpen] ++ params [(zs "a", Some (zs "1"))] ++ [NOpen] ++ params [(zs "a", None)] ++ [NClose; NClose]).
Proof. repeat split; simpl; lia. Qed.

(** * Anonymous labels *)

Fixpoint add_anons (pcs : list Z) : M unit :=
  match pcs with [] => ret tt | a :: l => upd (set_pc a) ;;; add_reusable ;;; add_anons l end.
Definition anons (s : st) (l : list Z) (k : nat) : Prop :=
  s_reus s = l /\ s_total_reus s = zlen l /\ s_curr_reus s = Z.of_nat k.
Lemma add_anons_ok : forall pcs s l, anons s l (length l) -> (length l + length pcs <= 4096)%nat ->
  exists s', add_anons pcs s = Ok tt s' /\ anons s' (l ++ pcs) (length (l ++ pcs)).
Proof.
  induction pcs as [|a pcs IH]; intros s l (H1 & H2 & H3) Hn; simpl in Hn.
  - exists s. split; [reflexivity|]. rewrite app_nil_r. repeat split; assumption.
  - cbn [add_anons]. msteps. unfold add_reusable. msteps. rewrite H3.
    replace ((0 <=? Z.of_nat (length l)) && (Z.of_nat (length l) <? MAX_REUSABLES)) with true
      by (unfold MAX_REUSABLES; lia).
    msteps. edestruct (IH (set_total_reus (Z.of_nat (length l) + 1) (set_curr_reus (Z.of_nat (length l) + 1)
        (set_reus (firstn (Z.to_nat (Z.of_nat (length l))) (s_reus s) ++ [a]) (set_pc a s)))) (l ++ [a])) as (s' & E & Hs').
    + repeat split; simpl.
      * rewrite H1, Nat2Z.id, firstn_all. reflexivity.
      * unfold zlen. rewrite app_length. simpl. lia.
      * rewrite app_length. simpl. lia.
    + rewrite app_length. simpl. lia.
    + exists s'. split; [exact E|]. rewrite <- app_assoc in Hs'. exact Hs'.
Qed.

Lemma count_plus_repeat n : forall i rest, hd0 rest <> 43 -> count_plus (repeat 43 n ++ rest) i = (rest, i + Z.of_nat n).
Proof.
  induction n as [|n IH]; intros i rest H; cbn [repeat app].
  - destruct rest as [|c rest]; simpl; [f_equal; lia|]. simpl in H. replace (c =? 43) with false by lia. f_equal. lia.
  - cbn [count_plus]. change (43 =? 43) with true. cbv iota. rewrite IH by assumption. f_equal. lia.
Qed.
Lemma count_minus_repeat n : forall i rest, hd0 rest <> 45 ->
  count_minus (repeat 45 n ++ rest) i =
  if Z.of_nat n <=? i then (rest, i - Z.of_nat n)
  else (repeat 45 (n - Z.to_nat i) ++ rest, Z.min i 0).
Proof.
  induction n as [|n IH]; intros i rest H; cbn [repeat app].
  - destruct rest as [|c rest]; simpl; [destruct (0 <=? i) eqn:E; f_equal; lia|]. simpl in H.
    replace (c =? 45) with false by lia. simpl. destruct (0 <=? i) eqn:E; f_equal; lia.
  - cbn [count_minus]. change (45 =? 45) with true. cbn [andb]. destruct (0 <? i) eqn:E.
    + rewrite IH by assumption. destruct (Z.of_nat n <=? i - 1) eqn:E2.
      * replace (Z.of_nat (S n) <=? i) with true by lia. f_equal. lia.
      * replace (Z.of_nat (S n) <=? i) with false by lia. f_equal; [|lia]. do 2 f_equal. lia.
    + replace (Z.of_nat (S n) <=? i) with false by lia. replace (Z.to_nat i) with O by lia. f_equal. lia.
Qed.

Lemma nth_nth_error l i : (i < length l)%nat -> nth_error l i = Some (nth i l 0).
Proof. intros H. now apply nth_error_nth'. Qed.

Lemma search_reusables_ok s l k i : anons s l k -> 0 <= i < zlen l ->
  search_reusables i s = Ok (nth (Z.to_nat i) l 0) s.
Proof.
  intros (H1 & H2 & H3) Hi. unfold search_reusables. msteps. rewrite H1, H2.
  replace ((i =? -1) || (zlen l <=? i)) with false by lia. replace (i <? 0) with false by lia. reflexivity.
Qed.

(** What a reference to an anonymous label evaluates to; [problem code] is the error
    recorded when there is no such label. *)
Definition anon_result (s : st) (rest : text) (v : option Z) (problem : Z) : res (option (text * option Z)) :=
  match v with
  | Some a => Ok (Some (rest, Some (wrap32 a))) s
  | None => Ok None (set_errs (mkerr problem (s_sess s) false (s_line s) (s_file s) :: s_errs s) s)
  end.

(** C22.  [pcs] are the addresses of the anonymous labels in source order, [k] the number of
    them up to the current line.  After defining labels the tables list them in order; and
    [_], n pluses and [_], n minuses and [_] evaluate to the next, the n-th following and the
    n-th preceding one, with an error recorded if there is none. *)
Theorem c22_anonymous_labels :
  (forall pcs s, s_reus s = [] -> s_total_reus s = 0 -> s_curr_reus s = 0 -> (length pcs <= 4096)%nat ->
     exists s', add_anons pcs s = Ok tt s' /\ anons s' pcs (length pcs)) /\
  (forall C R s l k rest, anons s l k -> (k <= length l)%nat -> is_name_char (hd0 rest) = false ->
     parse_single C R (95 :: rest) s = anon_result s rest (following l k 1) SPASM_ERR_LOCAL_LABEL_FORWARD_REF) /\
  (forall C R s l k rest n, anons s l k -> (k <= length l)%nat -> (1 <= n)%nat ->
     parse_single C R (repeat 43 n ++ 95 :: rest) s =
     anon_result s rest (following l k n) SPASM_ERR_LOCAL_LABEL_FORWARD_REF) /\
  (forall C R s l k rest n, anons s l k -> (k <= length l)%nat -> (1 <= n)%nat ->
     parse_single C R (repeat 45 n ++ 95 :: rest) s =
     anon_result s rest (preceding l k n) SPASM_ERR_LOCAL_LABEL_SYNTAX).
Proof.
  split; [|split; [|split]].
  - intros pcs s H1 H2 H3 Hn. apply (add_anons_ok pcs s []); [|exact Hn]. repeat split; assumption.
  - intros C R s l k rest Ha Hk Hr. unfold parse_single. cbn [hd0].
    change (95 =? 43) with false. change (95 =? 45) with false. change (95 =? 36) with false.
    change (95 =? 37) with false. change (95 =? 39) with false. change (isalpha 95 || (95 =? 95)) with true. cbv iota.
    unfold parse_name.
    assert (Eq : skip_to_name_end (95 :: rest) = rest).
    { simpl. destruct rest as [|c rest']; [reflexivity|]. simpl in Hr |- *. now rewrite Hr. }
    rewrite Eq.
    assert (En : seg (95 :: rest) rest = [95]).
    { unfold seg. simpl length. replace (S (length rest) - length rest)%nat with 1%nat by lia.
      replace (length rest <=? S (length rest))%nat with true by (symmetry; apply Nat.leb_le; lia). reflexivity. }
    rewrite En. unfold search_local_defines. msteps.
    assert (Hlab : exists o, (match find_arg (key C [95]) (s_args s) with
                              | Some _ => ret None | None => search_labels C [95] end) s = Ok o s).
    { destruct (find_arg (key C [95]) (s_args s)); eexists; reflexivity. }
    destruct Hlab as [lab Hlab]. rewrite (bind_ok _ _ _ _ _ Hlab).
    assert (Hdef : exists o, (match find_arg (key C [95]) (s_args s), lab with
                              | None, None => search_defines C [95] true
                              | _, _ => ret (find_arg (key C [95]) (s_args s)) end) s = Ok o s).
    { assert (Ho : ordinary (c_case C) [95]) by (split; unfold same_name; destruct (c_case C); reflexivity).
      destruct (find_arg (key C [95]) (s_args s)), lab; try (eexists; reflexivity).
      eexists. apply search_defines_ok, Ho. }
    destruct Hdef as [def Hdef]. rewrite (bind_ok _ _ _ _ _ Hdef).
    change (eqbl [95] (zs "_")) with true. cbv iota. unfold get_curr_reusable. msteps.
    pose proof Ha as (H1 & H2 & H3). rewrite H2, H3. unfold anon_result, following.
    destruct (Z.of_nat k - 1 + 1 <? zlen l) eqn:E.
    + rewrite nth_nth_error by (unfold zlen in *; lia).
      erewrite bind_ok by (apply (search_reusables_ok s l k); [assumption|lia]).
      replace (Z.to_nat (Z.of_nat k - 1 + 1)) with (k + 1 - 1)%nat by lia. reflexivity.
    + assert (nth_error l (k + 1 - 1) = None) as -> by (apply nth_error_None; unfold zlen in *; lia). reflexivity.
  - intros C R s l k rest n Ha Hk Hn. unfold parse_single.
    destruct n as [|n]; [lia|]. cbn [repeat app hd0]. change (43 =? 43) with true. cbv iota.
    unfold get_curr_reusable. msteps. destruct Ha as (H1 & H2 & H3). rewrite H3.
    rewrite count_plus_repeat by (simpl; lia). cbn [hd0]. change (negb (95 =? 95)) with false. cbv iota.
    msteps. rewrite H2. unfold anon_result, following.
    destruct (zlen l <=? Z.of_nat k - 1 + 1 + Z.of_nat n) eqn:E.
    + assert (nth_error l (k + S n - 1) = None) as -> by (apply nth_error_None; unfold zlen in *; lia). reflexivity.
    + rewrite nth_nth_error by (unfold zlen in *; lia).
      erewrite bind_ok by (apply (search_reusables_ok s l k); [repeat split; assumption|lia]).
      cbn [tl]. replace (Z.to_nat (Z.of_nat k - 1 + 1 + Z.of_nat n)) with (k + S n - 1)%nat by lia. reflexivity.
  - intros C R s l k rest n Ha Hk Hn. unfold parse_single.
    destruct n as [|n]; [lia|]. cbn [repeat app hd0]. change (45 =? 43) with false. change (45 =? 45) with true. cbv iota.
    unfold get_curr_reusable. msteps. destruct Ha as (H1 & H2 & H3). rewrite H3.
    rewrite count_minus_repeat by (simpl; lia). unfold anon_result, preceding.
    destruct (Z.of_nat n <=? Z.of_nat k - 1) eqn:E.
    + cbn [hd0]. change (negb (95 =? 95)) with false. cbn [orb].
      replace (Z.of_nat k - 1 - Z.of_nat n <? 0) with false by lia.
      replace (S n <=? k)%nat with true by lia. rewrite nth_nth_error by lia.
      erewrite bind_ok by (apply (search_reusables_ok s l k); [repeat split; assumption|unfold zlen; lia]).
      cbn [tl]. replace (Z.to_nat (Z.of_nat k - 1 - Z.of_nat n)) with (k - S n)%nat by lia. reflexivity.
    + replace (S n <=? k)%nat with false by lia.
      assert (E2 : negb (hd0 (repeat 45 (n - Z.to_nat (Z.of_nat k - 1)) ++ 95 :: rest) =? 95)
                   || (Z.min (Z.of_nat k - 1) 0 <? 0) = true).
      { destruct k as [|k].
        - replace (Z.min (Z.of_nat 0 - 1) 0 <? 0) with true by reflexivity. now rewrite orb_true_r.
        - replace (n - Z.to_nat (Z.of_nat (S k) - 1))%nat with (S (n - S k))%nat by lia. reflexivity. }
      rewrite E2. reflexivity.
Qed.
(* non-vacuity: three labels, the current line after the first *)
Example c22_case : following [16; 32; 48] 1 2 = Some 48 /\ preceding [16; 32; 48] 1 1 = Some 16 /\
  following [16; 32; 48] 1 3 = None /\ preceding [16; 32; 48] 1 2 = None.
Proof. repeat split. Qed.
(** The 4097th anonymous label is written past the end of the array. *)
Theorem c22_label_limit_refuted : exists pcs s, s_reus s = [] /\ s_total_reus s = 0 /\ s_curr_reus s = 0 /\
  add_anons pcs s = Undef UB_oob.
Proof.
  assert (E : forall m s l, anons s l (length l) -> (length l + m = 4096)%nat ->
     add_anons (repeat 0 (S m)) s = Undef UB_oob).
  { induction m as [|m IH]; intros s l (H1 & H2 & H3) Hl.
    - cbn [repeat add_anons]. msteps. unfold add_reusable. msteps. rewrite H3.
      replace ((0 <=? Z.of_nat (length l)) && (Z.of_nat (length l) <? MAX_REUSABLES)) with false
        by (unfold MAX_REUSABLES; lia). reflexivity.
    - destruct (add_anons_ok [0] s l) as (s1 & E1 & Ha); [repeat split; assumption|simpl; lia|].
      cbn [add_anons] in E1. change (repeat 0 (S (S m))) with (0 :: repeat 0 (S m)).
      cbn [add_anons]. rewrite bind_upd in *. cbv beta in *.
      apply bind_inv_ok in E1 as ([] & s2 & E2 & E3). injection E3; intros; subst s2.
      rewrite (bind_ok _ _ _ _ _ E2). apply (IH s1 (l ++ [0])); [exact Ha|]. rewrite app_length. simpl. lia. }
  exists (repeat 0 4097), (init_state false [] [] []). do 3 (split; [reflexivity|]).
  apply (E 4096%nat (init_state false [] [] []) []); [|reflexivity]. repeat split.
Qed.

(** * The label file *)

Lemma tolower_lower c : tolower c = lower_case c.
Proof. reflexivity. Qed.
Lemma ci_le a : forall b, ci_compare a b <> Gt <-> alpha_le a b.
Proof.
  induction a as [|x a IH]; intros [|y b]; simpl.
  - split; [constructor|discriminate].
  - split; [constructor|discriminate].
  - split; [congruence|]. intros H. inversion H.
  - rewrite (tolower_lower x), (tolower_lower y). destruct (Z.compare_spec (lower_case x) (lower_case y)) as [E|E|E].
    + split; intros H; [apply al_eq; [exact E|]; now apply IH|]. apply IH. inversion H; subst; [lia|assumption].
    + split; [intros _; now apply al_lt|discriminate].
    + split; [congruence|]. intros H. inversion H; subst; lia.
Qed.
Lemma ci_gt a : forall b, ci_compare a b = Gt -> alpha_le b a.
Proof.
  induction a as [|x a IH]; intros [|y b]; simpl; try congruence; try (intros _; apply al_nil).
  rewrite (tolower_lower x), (tolower_lower y). destruct (Z.compare_spec (lower_case x) (lower_case y)) as [E|E|E]; try congruence.
  - intros H. apply al_eq; auto.
  - intros _. now apply al_lt.
Qed.
Lemma alpha_trans a : forall b c, alpha_le a b -> alpha_le b c -> alpha_le a c.
Proof.
  induction a as [|x a IH]; intros b c H1 H2; [constructor|].
  inversion H1; subst; inversion H2; subst; try (apply al_lt; lia).
  apply al_eq; [lia|eauto].
Qed.
Definition entry_le (a b : text * Z) : Prop := alpha_le (fst a) (fst b).

Lemma lab_insert_perm e l : Permutation (lab_insert e l) (e :: l).
Proof.
  induction l as [|x l IH]; simpl; [reflexivity|]. destruct (ci_compare (fst e) (fst x)); try reflexivity.
  rewrite IH. constructor.
Qed.
Lemma lab_insert_sorted e l : StronglySorted entry_le l -> StronglySorted entry_le (lab_insert e l).
Proof.
  induction 1 as [|x l Hs IH Hf]; simpl; [repeat constructor|].
  assert (Hle : ci_compare (fst e) (fst x) <> Gt -> StronglySorted entry_le (e :: x :: l)).
  { intros H. apply ci_le in H. constructor; [now constructor|]. constructor; [exact H|].
    eapply Forall_impl; [|exact Hf]. intros y Hy. eapply alpha_trans; eauto. }
  destruct (ci_compare (fst e) (fst x)) eqn:E; try (apply Hle; congruence).
  constructor; [exact IH|]. apply Forall_forall. intros y Hy.
  apply (Permutation_in _ (lab_insert_perm e l)) in Hy. destruct Hy as [<-|Hy].
  - now apply ci_gt.
  - rewrite Forall_forall in Hf. now apply Hf.
Qed.
Lemma lab_labels_ok t : StronglySorted entry_le (lab_labels t) /\
  Permutation (lab_labels t) (map (fun e => (l_name (snd e), l_value (snd e))) t).
Proof.
  unfold lab_labels.
  assert (H : forall acc, StronglySorted entry_le acc ->
    StronglySorted entry_le (fold_left (fun l e => lab_insert (l_name (snd e), l_value (snd e)) l) t acc) /\
    Permutation (fold_left (fun l e => lab_insert (l_name (snd e), l_value (snd e)) l) t acc)
                (map (fun e => (l_name (snd e), l_value (snd e))) t ++ acc)).
  { induction t as [|e t IH]; intros acc Hs; simpl; [split; [exact Hs|reflexivity]|].
    destruct (IH (lab_insert (l_name (snd e), l_value (snd e)) acc)) as [I1 I2]; [now apply lab_insert_sorted|].
    split; [exact I1|]. rewrite I2, lab_insert_perm. symmetry. apply Permutation_middle. }
  destruct (H [] ltac:(constructor)) as [H1 H2]. rewrite app_nil_r in H2. split; assumption.
Qed.

(** The defines listed: each is a define without parameters, whose text evaluated to the
    value listed. *)
Definition listed_define (R : fns) (t : list (text * define)) (e : text * Z) : Prop :=
  exists k d c s s', In (k, d) t /\ d_name d = fst e /\ d_args d = [] /\ d_contents d = Some c /\
    parse_num R c s = Ok (Some (snd e)) s'.
Lemma lab_defines_ok R : forall t l s l' s', lab_defines R t l s = Ok l' s' -> StronglySorted entry_le l ->
  StronglySorted entry_le l' /\ exists ds, Permutation l' (l ++ ds) /\ Forall (listed_define R t) ds.
Proof.
  induction t as [|[k d] t IH]; intros l s l' s' E Hs.
  - injection E; intros; subst. split; [exact Hs|]. exists []. rewrite app_nil_r. split; [reflexivity|constructor].
  - cbn [lab_defines] in E. apply bind_inv_ok in E as (l1 & s1 & E1 & E2).
    assert (Hm : forall ds, Forall (listed_define R t) ds -> Forall (listed_define R ((k, d) :: t)) ds).
    { intros ds Hd. eapply Forall_impl; [|exact Hd]. intros e (k0 & d0 & c & u & u' & Hin & H). exists k0, d0, c, u, u'. split; [now right|exact H]. }
    assert (Hl1 : l1 = l \/ exists v, l1 = lab_insert (d_name d, v) l /\ listed_define R ((k, d) :: t) (d_name d, v)).
    { destruct (d_args d) eqn:Ea; [|injection E1; intros; subst; now left].
      destruct (d_contents d) as [c|] eqn:Ec; [|injection E1; intros; subst; now left].
      apply bind_inv_ok in E1 as (v & s2 & E3 & E4). injection E4; intros; subst.
      destruct v as [v|]; [|now left]. right. exists v. split; [reflexivity|].
      exists k, d, c, s, s1. repeat split; auto. now left. }
    destruct Hl1 as [->|(v & -> & Hv)].
    + destruct (IH _ _ _ _ E2 Hs) as (H1 & ds & H2 & H3). split; [exact H1|]. exists ds. auto.
    + destruct (IH _ _ _ _ E2 (lab_insert_sorted _ _ Hs)) as (H1 & ds & H2 & H3). split; [exact H1|].
      exists ((d_name d, v) :: ds). split; [|constructor; auto]. rewrite H2, lab_insert_perm. simpl.
      apply Permutation_middle.
Qed.

Lemma hexdig_value d : 0 <= d < 16 -> hex_digit_value (hexdig d) = Some d.
Proof.
  intros H. unfold hexdig, hex_digit_value. destruct (d <? 10) eqn:E.
  - replace ((48 <=? 48 + d) && (48 + d <=? 57)) with true by lia. f_equal. lia.
  - replace ((48 <=? 55 + d) && (55 + d <=? 57)) with false by lia.
    replace ((65 <=? 55 + d) && (55 + d <=? 70)) with true by lia. f_equal. lia.
Qed.
Lemma hex_value_snoc : forall l a b d, hex_value a l = Some b -> 0 <= d < 16 ->
  hex_value a (l ++ [hexdig d]) = Some (16 * b + d).
Proof.
  induction l as [|c l IH]; intros a b d H Hd; cbn [app hex_value] in *.
  - injection H; intros; subst. now rewrite hexdig_value.
  - destruct (hex_digit_value c); [now apply IH|discriminate].
Qed.
Lemma hexmin_value n : 0 <= n -> hex_value 0 (hexmin n) = Some n.
Proof.
  intros H0. refine (Z_lt_induction (fun n => 0 <= n -> hex_value 0 (hexmin n) = Some n) _ n H0 H0).
  clear n H0. intros n IH Hn.
  rewrite hexmin_step by lia. destruct (n <? 16) eqn:E.
  - cbn [hex_value]. rewrite hexdig_value by lia. reflexivity.
  - rewrite (hex_value_snoc _ _ (n / 16)); [f_equal; lia| |lia]. apply IH; lia.
Qed.
Lemma hexw_value w n : 0 <= n -> hex_value 0 (hexw w n) = Some n /\ (w <= length (hexw w n))%nat.
Proof.
  intros Hn. unfold hexw. split.
  - induction (w - length (hexmin n))%nat as [|k IH]; [now apply hexmin_value|exact IH].
  - rewrite app_length, repeat_length. lia.
Qed.
Lemma lab_line_ok e : label_line (fst e) (snd e) (lab_line e).
Proof.
  unfold lab_line, label_line. exists (hexw 4 (u32 (snd e))). split; [reflexivity|].
  apply (hexw_value 4). unfold u32. lia.
Qed.

(** C23.  If the label file is written, its lines are exactly: one line for each label in
    the table with its value, and one line for each listed define; in alphabetical order
    ignoring case; each line reads [NAME = $VALUE]. *)
Theorem c23_label_file : forall R filename s s', write_labels R filename s = Ok tt s' ->
  exists l ds lines before,
    s_outfiles s' = (filename, concat lines) :: before /\
    Forall2 (fun e line => label_line (fst e) (snd e) line) l lines /\
    StronglySorted (fun a b => alpha_le (fst a) (fst b)) l /\
    Permutation l (map (fun e => (l_name (snd e), l_value (snd e))) (s_labels s) ++ ds) /\
    Forall (listed_define R (s_defines s)) ds.
Proof.
  intros R filename s s' E. unfold write_labels in E.
  repeat (apply bind_inv_ok in E as (? & ? & ? & E)).
  repeat match goal with
  | H : start_session _ = Ok _ _ |- _ => unfold start_session in H; rewrite !bind_get, !bind_upd in H; cbv beta in H; injection H; intros; subst; clear H
  | H : get _ _ = Ok _ _ |- _ => injection H; intros; subst; clear H
  end.
  match goal with H : lab_defines _ _ _ _ = Ok ?l _ |- _ => apply lab_defines_ok in H as (D1 & ds & D2 & D3); [|apply lab_labels_ok];
    exists l, ds, (map lab_line l) end.
  injection E; intros; subst s'. eexists. split; [reflexivity|]. split; [|split; [exact D1|split]].
  - clear. match goal with |- Forall2 _ ?l _ => induction l as [|e l IH]; constructor; auto using lab_line_ok end.
  - rewrite D2. apply Permutation_app_tail. apply (proj2 (lab_labels_ok _)).
  - exact D3.
Qed.
Example c23_case : let l := lab_labels [(zs "B", mklabel (zs "B") 1 [] 16); (zs "_A", mklabel (zs "_A") 1 [] (-1)); (zs "a", mklabel (zs "a") 1 [] 70000)] in
  concat (map lab_line l) = zs "_A = $FFFFFFFF" ++ [10] ++ zs "a = $11170" ++ [10] ++ zs "B = $0010" ++ [10].
Proof. reflexivity. Qed.

Print Assumptions c19_c20_c21_names.
Print Assumptions c21_scopes.
Print Assumptions c22_anonymous_labels.
Print Assumptions c22_label_limit_refuted.
Print Assumptions c23_label_file.
