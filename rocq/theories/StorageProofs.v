(** Lemmas on the symbol storage. *)
From Coq Require Import Sorting.Sorted Permutation.
From Verif Require Import Base BaseProofs State MonadProofs UtilsModel ErrorsModel StorageModel StorageSpec.

(** * Ordered tables *)
Lemma text_ltb_irrefl a : text_ltb a a = false.
Proof. induction a as [|x a IH]; simpl; [reflexivity|]. rewrite IH. lia. Qed.
Lemma text_ltb_trans : forall a b c, text_ltb a b = true -> text_ltb b c = true -> text_ltb a c = true.
Proof.
  induction a as [|x a IH]; intros [|y b] [|z c]; simpl; try congruence.
  intros H1 H2. apply orb_prop in H1. apply orb_prop in H2. apply orb_true_iff.
  destruct H1 as [H1|H1], H2 as [H2|H2]; try (left; lia).
  right. apply andb_prop in H1 as [E1 H1]. apply andb_prop in H2 as [E2 H2].
  rewrite (IH _ _ H1 H2). lia.
Qed.
Lemma text_total a : forall b, eqbl a b = false -> text_ltb a b = false -> text_ltb b a = true.
Proof.
  induction a as [|x a IH]; intros [|y b]; simpl; try congruence.
  intros H1 H2. destruct (x =? y) eqn:E.
  - simpl in *. rewrite (IH _ H1); [lia|]. destruct (text_ltb a b); [|reflexivity]. lia.
  - lia.
Qed.

Definition key_lt {A} (a b : text * A) : Prop := text_ltb (fst a) (fst b) = true.
Definition table_ok {A} (t : list (text * A)) : Prop := StronglySorted key_lt t.

Lemma eqbl_neq a b : eqbl a b = false <-> a <> b.
Proof.
  split.
  - intros H ->. rewrite eqbl_refl in H. discriminate.
  - intros H. destruct (eqbl a b) eqn:E; [|reflexivity]. apply eqbl_eq in E. contradiction.
Qed.

Lemma tfind_tset_same {A} k (v : A) t : tfind k (tset k v t) = Some v.
Proof.
  induction t as [|[k' v'] t IH]; simpl; [now rewrite eqbl_refl|].
  destruct (eqbl k k') eqn:E; simpl; [now rewrite E|].
  destruct (text_ltb k k'); simpl; [now rewrite eqbl_refl|]. now rewrite E.
Qed.
Lemma tfind_tset_other {A} k k2 (v : A) t : k2 <> k -> tfind k2 (tset k v t) = tfind k2 t.
Proof.
  intros H. assert (Hf : eqbl k2 k = false) by now apply eqbl_neq.
  induction t as [|[k' v'] t IH]; simpl; [now rewrite Hf|].
  destruct (eqbl k k') eqn:E; simpl.
  - apply eqbl_eq in E. subst k'. now rewrite Hf.
  - destruct (text_ltb k k'); simpl; [now rewrite Hf|]. now rewrite IH.
Qed.
Lemma tfind_tset {A} k k2 (v : A) t : tfind k2 (tset k v t) = if eqbl k2 k then Some v else tfind k2 t.
Proof.
  destruct (eqbl k2 k) eqn:E.
  - apply eqbl_eq in E. subst. apply tfind_tset_same.
  - apply tfind_tset_other. now apply eqbl_neq.
Qed.
Lemma tfind_above {A} k (t : list (text * A)) :
  Forall (fun e => text_ltb k (fst e) = true) t -> tfind k t = None.
Proof.
  induction 1 as [|[k' v'] t H _ IH]; simpl; [reflexivity|]. simpl in H.
  destruct (eqbl k k') eqn:E; [|exact IH]. apply eqbl_eq in E. subst. now rewrite text_ltb_irrefl in H.
Qed.
Lemma tfind_tdel {A} k k2 (t : list (text * A)) : table_ok t ->
  tfind k2 (tdel k t) = if eqbl k2 k then None else tfind k2 t.
Proof.
  induction 1 as [|[k' v'] t Hs IH Hf]; simpl; [now destruct (eqbl k2 k)|].
  destruct (eqbl k k') eqn:E.
  - apply eqbl_eq in E. subst k'. destruct (eqbl k2 k) eqn:E2; [|reflexivity].
    apply eqbl_eq in E2. subst k2. apply tfind_above. exact Hf.
  - simpl. destruct (eqbl k2 k') eqn:E3; [|exact IH].
    apply eqbl_eq in E3. subst k2. destruct (eqbl k' k) eqn:E4; [|reflexivity].
    apply eqbl_eq in E4. subst k'. rewrite eqbl_refl in E. discriminate.
Qed.
Lemma tset_keys {A} k (v : A) t e : In e (tset k v t) -> fst e = k \/ In e t.
Proof.
  induction t as [|[k' v'] t IH]; simpl.
  - intros [<-|[]]. auto.
  - destruct (eqbl k k') eqn:E.
    + apply eqbl_eq in E. subst. simpl. intros [<-|H]; auto.
    + destruct (text_ltb k k'); simpl.
      * intros [<-|[<-|H]]; auto.
      * intros [<-|H]; [auto|]. destruct (IH H); auto.
Qed.
Lemma tset_ok {A} k (v : A) t : table_ok t -> table_ok (tset k v t).
Proof.
  induction 1 as [|[k' v'] t Hs IH Hf]; simpl.
  - constructor; constructor.
  - destruct (eqbl k k') eqn:E.
    + constructor; [assumption|]. exact Hf.
    + destruct (text_ltb k k') eqn:L.
      * constructor; [constructor; assumption|]. constructor; [exact L|].
        eapply Forall_impl; [|exact Hf]. intros e He. unfold key_lt in *. simpl in *. eauto using text_ltb_trans.
      * constructor; [exact IH|]. apply Forall_forall. intros e He. apply tset_keys in He.
        unfold key_lt. simpl. destruct He as [->|He].
        -- now apply text_total.
        -- rewrite Forall_forall in Hf. apply (Hf e He).
Qed.
Lemma tdel_ok {A} k (t : list (text * A)) : table_ok t -> table_ok (tdel k t).
Proof.
  induction 1 as [|[k' v'] t Hs IH Hf]; simpl; [constructor|].
  destruct (eqbl k k'); [assumption|]. constructor; [exact IH|].
  apply Forall_forall. intros e He. rewrite Forall_forall in Hf. apply Hf.
  clear -He. induction t as [|[k2 v2] t IH]; simpl in *; [assumption|].
  destruct (eqbl k k2); [auto|]. destruct He as [<-|He]; [auto|]. right. auto.
Qed.

(** * Keys *)
Section Names.
Variable C : cfg.

Lemma toupper_fold c : toupper c = fold_case c.
Proof. reflexivity. Qed.
Lemma fold_case_idem c : fold_case (fold_case c) = fold_case c.
Proof.
  unfold fold_case. destruct ((97 <=? c) && (c <=? 122)) eqn:E.
  - replace ((97 <=? c - 32) && (c - 32 <=? 122)) with false by lia. reflexivity.
  - now rewrite E.
Qed.
Lemma strup_idem n : strup (strup n) = strup n.
Proof. unfold strup. rewrite map_map. apply map_ext. intros. rewrite !toupper_fold. apply fold_case_idem. Qed.
Lemma key_idem n : key C (key C n) = key C n.
Proof. unfold key. destruct (c_case C); [reflexivity|apply strup_idem]. Qed.
Lemma same_letters_iff : forall a b, same_letters a b = eqbl (strup a) (strup b).
Proof. induction a as [|x a IH]; intros [|y b]; simpl; try reflexivity. now rewrite IH. Qed.
Lemma same_name_key a b : same_name (c_case C) a b = eqbl (key C a) (key C b).
Proof. unfold same_name, key. destruct (c_case C); [reflexivity|apply same_letters_iff]. Qed.

(** * The refinement *)
Definition entry_of (d : define) : entry := mkentry (d_contents d) (d_args d).
Definition table_means (t : list (text * define)) (f : text -> option entry) : Prop :=
  table_ok t /\ forall n, f n = option_map entry_of (tfind (key C n) t).

Record rep (s : st) (ns : names) : Prop := mkrep {
  r_lab_ok : table_ok (s_labels s);
  r_lab : forall n, n_labels ns n = option_map l_value (tfind (key C n) (s_labels s));
  r_def : table_means (s_defines s) (n_defines ns);
  r_args : Forall2 (fun a f => table_means (snd a) f) (s_args s) (n_scopes ns);
  r_ids : NoDup (map fst (s_args s));
  r_next : Forall (fun a => (fst a < s_nextid s)%nat) (s_args s);
  r_status : s_exitc s = n_status ns }.

Lemma find_arg_spec k sets : match find_arg k sets with
  | Some r => exists a id t b d, r = RL id k /\ sets = a ++ (id, t) :: b /\ tfind k t = Some d /\
                Forall (fun x => tfind k (snd x) = None) a
  | None => Forall (fun x => tfind k (snd x) = None) sets end.
Proof.
  induction sets as [|[id t] sets IH]; simpl; [constructor|].
  destruct (tfind k t) as [d|] eqn:E.
  - exists [], id, t, sets, d. auto.
  - destruct (find_arg k sets) as [r|].
    + destruct IH as (a & id' & t' & b & d & -> & -> & E2 & H). exists ((id, t) :: a), id', t', b, d. auto.
    + constructor; assumption.
Qed.
Lemma find_set_mid a id t b : NoDup (map fst (a ++ (id, t) :: b)) -> find_set id (a ++ (id, t) :: b) = Some t.
Proof.
  induction a as [|[i u] a IH]; simpl; intros H.
  - now rewrite Nat.eqb_refl.
  - inversion H; subst. destruct (Nat.eqb_spec i id) as [->|N]; [|now apply IH].
    exfalso. match goal with H : ~ In _ _ |- _ => apply H end. rewrite map_app. apply in_or_app. right. now left.
Qed.
Lemma put_set_mid a id t v b : NoDup (map fst (a ++ (id, t) :: b)) ->
  put_set id v (a ++ (id, t) :: b) = a ++ (id, v) :: b.
Proof.
  induction a as [|[i u] a IH]; simpl; intros H.
  - now rewrite Nat.eqb_refl.
  - inversion H; subst. destruct (Nat.eqb_spec i id) as [->|N]; [|now rewrite IH].
    exfalso. match goal with H : ~ In _ _ |- _ => apply H end. rewrite map_app. apply in_or_app. right. now left.
Qed.

(** Looking a name up. *)
Definition found (s : st) (n : text) : option dref :=
  match find_arg (key C n) (s_args s) with
  | Some r => Some r
  | None => match tfind (key C n) (s_defines s) with Some _ => Some (RG (key C n)) | None => None end
  end.
Lemma found_meaning s ns n : rep s ns ->
  match found s n with
  | Some r => exists d, lookup_ref s r = Some d /\ meaning ns n = Some (entry_of d)
  | None => meaning ns n = None
  end.
Proof.
  intros R. unfold found, meaning. destruct R as [_ _ [_ Rd] Ra Ri _ _].
  pose proof (find_arg_spec (key C n) (s_args s)) as F.
  destruct (find_arg (key C n) (s_args s)) as [r|].
  - destruct F as (a & id & t & b & d & -> & E & Et & Ha). exists d. simpl. rewrite E in *.
    rewrite find_set_mid by assumption. split; [assumption|].
    assert (in_scopes (n_scopes ns) n = Some (entry_of d)) as ->; [|reflexivity].
    clear -Ra Ha Et. revert Ra. generalize (n_scopes ns). induction a as [|[i u] a IH]; intros l Ra.
    + inversion Ra as [|? f ? l' [_ Hf] _]; subst. simpl. rewrite Hf. simpl. now rewrite Et.
    + inversion Ra as [|? f ? l' [_ Hf] Ra']; subst. inversion Ha; subst. simpl in *. rewrite Hf, H1. simpl. now apply IH.
  - assert (in_scopes (n_scopes ns) n = None) as ->.
    { clear -Ra F. revert F. induction Ra as [|[i u] f args l [_ Hf] _ IH]; intros F; simpl; [reflexivity|].
      inversion F; subst. simpl in *. rewrite Hf, H1. simpl. now apply IH. }
    rewrite Rd. destruct (tfind (key C n) (s_defines s)) as [d|] eqn:E; [|reflexivity].
    exists d. simpl. auto.
Qed.

Lemma search_defines_ok n s : ordinary (c_case C) n -> search_defines C n true s = Ok (found s n) s.
Proof.
  intros [H1 H2]. rewrite same_name_key in H1, H2.
  assert (E1 : eqbl (key C n) (zs "__LINE") = false).
  { destruct (eqbl (key C n) (zs "__LINE")) eqn:E; [|reflexivity]. apply eqbl_eq in E.
    rewrite E in H1. unfold key in H1. destruct (c_case C); discriminate. }
  assert (E2 : eqbl (key C n) (zs "__FILE") = false).
  { destruct (eqbl (key C n) (zs "__FILE")) eqn:E; [|reflexivity]. apply eqbl_eq in E.
    rewrite E in H2. unfold key in H2. destruct (c_case C); discriminate. }
  unfold search_defines. msteps. rewrite E1, E2. reflexivity.
Qed.
Lemma ordinary_key n : ordinary (c_case C) n -> ordinary (c_case C) (key C n).
Proof. intros [H1 H2]. unfold ordinary in *. rewrite !same_name_key in *. now rewrite key_idem. Qed.
Lemma found_key s n : found s (key C n) = found s n.
Proof. unfold found. now rewrite key_idem. Qed.

(** The operations on the model. *)
Definition do_name (o : name_op) : M unit :=
  match o with
  | NLabel n v => add_label C n v ;;; ret tt
  | NDefine n t =>
    r <- add_define C n true ;;
    match r with Some (r, _) => set_contents r t | None => ret tt end
  | NUndef n => remove_define C n
  | NOpen => add_arg_set ;;; ret tt
  | NParam n t => a <- get s_args ;; match a with (id, _) :: _ => add_arg C n t id | [] => ret tt end
  | NClose => a <- get s_args ;; match a with (id, _) :: _ => remove_arg_set (Some id) | [] => ret tt end
  end.
Fixpoint do_names (l : list name_op) : M unit :=
  match l with [] => ret tt | o :: l' => do_name o ;;; do_names l' end.

Lemma raise_exit_ok n s : raise_exit n s = Ok tt (set_exitc (Z.max n (s_exitc s)) s).
Proof.
  unfold raise_exit. msteps. unfold upd. do 2 f_equal. destruct (s_exitc s <? n) eqn:E; lia.
Qed.

Lemma bind_means {A} (g : label -> A) k n v (t : list (text * label)) f (l : label) :
  k = key C n -> (forall m, f m = option_map g (tfind (key C m) t)) -> g l = v ->
  forall m, bind_name (c_case C) n (Some v) f m = option_map g (tfind (key C m) (tset k l t)).
Proof.
  intros -> H E m. unfold bind_name. rewrite same_name_key, tfind_tset.
  destruct (eqbl (key C m) (key C n)); [simpl; now rewrite E|apply H].
Qed.
Lemma table_bind t f n d : table_means t f ->
  table_means (tset (key C n) d t) (bind_name (c_case C) n (Some (entry_of d)) f).
Proof.
  intros [Hs H]. split; [now apply tset_ok|]. intros m. unfold bind_name.
  rewrite same_name_key, tfind_tset. destruct (eqbl (key C m) (key C n)); [reflexivity|apply H].
Qed.

Lemma label_step n v s ns : rep s ns -> ordinary (c_case C) n ->
  exists s', do_name (NLabel n v) s = Ok tt s' /\ rep s' (name_step (c_case C) (c_counter C) (NLabel n v) ns).
Proof.
  intros R Ho. simpl. unfold add_label. destruct (c_counter C); [exists s; split; [reflexivity|assumption]|].
  msteps. erewrite bind_ok by (apply search_defines_ok, ordinary_key, Ho). rewrite found_key.
  pose proof (found_meaning s ns n R) as F. destruct (found s n) as [r|].
  - destruct F as (d & _ & ->). msteps. unfold show_error. erewrite bind_ok by apply raise_exit_ok.
    eexists. split; [reflexivity|]. destruct R. constructor; simpl; auto. now rewrite r_status0.
  - rewrite F. msteps. pose proof (r_lab _ _ R n) as L. rewrite L.
    destruct (tfind (key C n) (s_labels s)) as [l|] eqn:E; simpl.
    + destruct (v =? l_value l) eqn:Ev.
      * msteps. exists s. split; [reflexivity|]. replace (l_value l =? v) with true by lia.
        destruct R. constructor; simpl; auto.
        intros m. unfold bind_name. rewrite same_name_key. destruct (eqbl (key C m) (key C n)) eqn:Em; [|apply r_lab0].
        apply eqbl_eq in Em. rewrite Em, E. simpl. f_equal. lia.
      * msteps. unfold show_warning. erewrite bind_ok by apply raise_exit_ok. eexists. split; [reflexivity|].
        replace (l_value l =? v) with false by lia.
        destruct R. constructor; simpl; auto using tset_ok.
        -- apply (bind_means l_value); auto.
        -- now rewrite r_status0.
    + msteps. eexists. split; [reflexivity|]. destruct R. constructor; simpl; auto using tset_ok.
      apply (bind_means l_value); auto.
Qed.

Lemma scope_update (sets : list (nat * list (text * define))) n scopes a id t b d :
  sets = a ++ (id, t) :: b -> Forall (fun x => tfind (key C n) (snd x) = None) a ->
  (exists d0, tfind (key C n) t = Some d0) ->
  Forall2 (fun x f => table_means (snd x) f) sets scopes ->
  Forall2 (fun x f => table_means (snd x) f) (a ++ (id, tset (key C n) d t) :: b)
          (set_in_scopes (c_case C) n (entry_of d) scopes).
Proof.
  intros -> Ha [d0 Hd]. revert scopes. induction Ha as [|[i u] a Hx _ IH]; intros scopes R.
  - inversion R as [|? f ? l [Hs Hf] R']; subst. simpl in *. rewrite Hf, Hd. simpl.
    constructor; [|assumption]. simpl. apply table_bind. split; assumption.
  - inversion R as [|? f ? l [Hs Hf] R']; subst. simpl in *. rewrite Hf, Hx. simpl.
    constructor; [split; assumption|]. now apply IH.
Qed.

Lemma map_fst_mid {A B} (a : list (A * B)) i u v b : map fst (a ++ (i, u) :: b) = map fst (a ++ (i, v) :: b).
Proof. now rewrite !map_app. Qed.

Lemma get_define_ok r s d : lookup_ref s r = Some d -> get_define r s = Ok d s.
Proof. intros H. unfold get_define. now rewrite H. Qed.
Lemma put_define_local s a id t b k d0 d : s_args s = a ++ (id, t) :: b ->
  NoDup (map fst (a ++ (id, t) :: b)) -> tfind k t = Some d0 ->
  put_define (RL id k) d s = Ok tt (set_args (a ++ (id, tset k d t) :: b) s).
Proof.
  intros E N H. unfold put_define. simpl. rewrite E, find_set_mid, H by assumption. now rewrite put_set_mid.
Qed.

Lemma put_define_global s k d0 d : tfind k (s_defines s) = Some d0 ->
  put_define (RG k) d s = Ok tt (set_defines (tset k d (s_defines s)) s).
Proof. intros H. unfold put_define. simpl. now rewrite H. Qed.

Lemma define_step n t s ns : rep s ns -> ordinary (c_case C) n -> n <> [] ->
  exists s', do_name (NDefine n t) s = Ok tt s' /\ rep s' (name_step (c_case C) (c_counter C) (NDefine n t) ns).
Proof.
  intros R Ho Hn. cbn [do_name name_step]. unfold add_define. destruct n as [|c0 n0]; [congruence|].
  set (n := c0 :: n0) in *. msteps. unfold search_labels at 1. msteps. rewrite key_idem.
  pose proof (r_lab _ _ R n) as L. rewrite L. destruct (tfind (key C n) (s_labels s)) as [l|] eqn:El; simpl.
  { unfold show_error. msteps. erewrite bind_ok by apply raise_exit_ok. msteps.
    eexists. split; [reflexivity|]. destruct R. constructor; simpl; auto. now rewrite r_status0. }
  msteps. erewrite bind_ok by (apply search_defines_ok, ordinary_key, Ho). rewrite found_key.
  pose proof (found_meaning s ns n R) as F. unfold meaning in F.
  unfold found in *. pose proof (find_arg_spec (key C n) (s_args s)) as FA.
  destruct (find_arg (key C n) (s_args s)) as [r|].
  - (* a parameter *)
    destruct FA as (a & id & tb & b & d & -> & E & Et & Ha).
    destruct F as (d' & Hd' & Hm).
    assert (Hin : exists e, in_scopes (n_scopes ns) n = Some e).
    { destruct (in_scopes (n_scopes ns) n) as [e|] eqn:Ei; [eauto|]. exfalso.
      destruct R as [_ _ _ Ra _ _ _]. rewrite E in Ra. clear -Ra Ha Et Ei.
      revert Ra Ei. generalize (n_scopes ns). induction Ha as [|[i u] a Hx _ IH]; intros l Ra Ei;
        inversion Ra as [|? f ? l' [_ Hf] Ra']; subst; simpl in *; rewrite Hf in Ei.
      - rewrite Et in Ei. discriminate.
      - rewrite Hx in Ei. simpl in Ei. eauto. }
    destruct Hin as [e0 ->].
    assert (Hd : d' = d).
    { simpl in Hd'. rewrite E in Hd'. rewrite find_set_mid in Hd' by (rewrite <- E; apply R). congruence. }
    subst d'. pose proof (r_ids _ _ R) as Rid. rewrite E in Rid.
    rewrite (bind_assoc _ _ _). erewrite bind_ok by (apply get_define_ok; exact Hd').
    rewrite (bind_assoc _ _ _). erewrite bind_ok by (eapply put_define_local; eassumption). msteps.
    unfold set_contents. erewrite bind_ok.
    2:{ apply get_define_ok. simpl. rewrite find_set_mid by (now rewrite (map_fst_mid a id _ tb b)). apply tfind_tset_same. }
    erewrite put_define_local; [|reflexivity|simpl; now rewrite (map_fst_mid a id _ tb b)|apply tfind_tset_same].
    cbn [s_args set_args].
    eexists. split; [reflexivity|]. destruct R. rewrite E in *. constructor; simpl; auto.
    + set (d1 := mkdefine (d_name d) (d_line d) (d_file d) (d_contents d) []).
      set (d2 := mkdefine (d_name d) (d_line d) (d_file d) (Some t) []).
      replace (tset (key C n) d2 (tset (key C n) d1 tb)) with (tset (key C n) d2 tb).
      * change (mkentry (Some t) []) with (entry_of d2). eapply (scope_update _ n _ a id tb b d2 eq_refl); eauto.
      * clear. induction tb as [|[k v] tb IH]; simpl; [now rewrite eqbl_refl|].
        destruct (eqbl (key C n) k) eqn:Ek; simpl; [now rewrite Ek|].
        destruct (text_ltb (key C n) k) eqn:Lk; simpl; [now rewrite eqbl_refl|]. rewrite Ek, Lk. now rewrite IH.
    + now rewrite (map_fst_mid a id _ tb b).
    + rewrite Forall_app in *. destruct r_next0 as [N1 N2]. split; [assumption|]. inversion N2; subst. constructor; assumption.
  - (* a global define *)
    assert (Hin : in_scopes (n_scopes ns) n = None).
    { destruct R as [_ _ _ Ra _ _ _]. clear -Ra FA. revert FA.
      induction Ra as [|[i u] f args l [_ Hf] _ IH]; intros F; simpl; [reflexivity|].
      inversion F; subst. simpl in *. rewrite Hf, H1. simpl. now apply IH. }
    rewrite Hin in *.
    destruct (tfind (key C n) (s_defines s)) as [d|] eqn:Ed.
    + rewrite (bind_assoc _ _ _). erewrite bind_ok by (apply get_define_ok; exact Ed).
      rewrite (bind_assoc _ _ _). erewrite bind_ok by (eapply put_define_global; exact Ed). msteps.
      unfold set_contents. erewrite bind_ok by (apply get_define_ok; simpl; apply tfind_tset_same).
      erewrite put_define_global by (simpl; apply tfind_tset_same). cbn [s_defines set_defines].
      eexists. split; [reflexivity|]. destruct R. constructor; simpl; auto.
      set (d1 := mkdefine (d_name d) (d_line d) (d_file d) (d_contents d) []).
      set (d2 := mkdefine (d_name d) (d_line d) (d_file d) (Some t) []).
      assert (Hm : table_means (tset (key C n) d2 (tset (key C n) d1 (s_defines s)))
                 (bind_name (c_case C) n (Some (entry_of d2)) (bind_name (c_case C) n (Some (entry_of d1)) (n_defines ns))))
        by (now apply table_bind, table_bind).
      destruct Hm as [M1 M2]. split; [assumption|]. intros m. rewrite <- M2. unfold bind_name.
      destruct (same_name (c_case C) m n); reflexivity.
    + msteps. unfold set_contents. erewrite bind_ok by (apply get_define_ok; simpl; apply tfind_tset_same).
      erewrite put_define_global by (simpl; apply tfind_tset_same). cbn [s_defines set_defines].
      eexists. split; [reflexivity|]. destruct R. constructor; simpl; auto.
      set (d1 := mkdefine (key C n) (s_line s) (s_file s) None []).
      set (d2 := mkdefine (key C n) (s_line s) (s_file s) (Some t) []).
      assert (Hm : table_means (tset (key C n) d2 (tset (key C n) d1 (s_defines s)))
                 (bind_name (c_case C) n (Some (entry_of d2)) (bind_name (c_case C) n (Some (entry_of d1)) (n_defines ns))))
        by (now apply table_bind, table_bind).
      destruct Hm as [M1 M2]. split; [assumption|]. intros m. rewrite <- M2. unfold bind_name.
      destruct (same_name (c_case C) m n); reflexivity.
Qed.

Lemma name_step_ok o s ns : rep s ns -> op_ordinary (c_case C) o ->
  match o with NParam _ _ | NClose => n_scopes ns <> [] | NDefine n _ => n <> [] | _ => True end ->
  exists s', do_name o s = Ok tt s' /\ rep s' (name_step (c_case C) (c_counter C) o ns).
Proof.
  intros R Ho Hb. destruct o as [n v|n t|n| |n t|].
  - now apply label_step.
  - now apply define_step.
  - simpl. unfold remove_define. msteps. eexists. split; [reflexivity|]. destruct R as [R1 R2 [R3 R3'] R4 R5 R6 R7].
    constructor; simpl; auto. split; [now apply tdel_ok|]. intros m. unfold bind_name.
    rewrite same_name_key, tfind_tdel by assumption. destruct (eqbl (key C m) (key C n)); [reflexivity|apply R3'].
  - simpl. unfold add_arg_set. msteps. eexists. split; [reflexivity|]. destruct R. constructor; simpl; auto.
    + constructor; [|assumption]. split; [constructor|reflexivity].
    + constructor; [|assumption]. intros H. apply in_map_iff in H as ([i u] & E & H). simpl in E. subst i.
      rewrite Forall_forall in r_next0. specialize (r_next0 _ H). simpl in r_next0. lia.
    + constructor; [simpl; lia|]. eapply Forall_impl; [|exact r_next0]. cbv beta. intros [? ?] Hx. cbn [fst] in *. lia.
  - simpl. msteps. pose proof (r_args _ _ R) as Ra. destruct (n_scopes ns) as [|f l]; [congruence|].
    inversion Ra as [|[id tb] f' sets l' Hf Ra' E1 E2]; subst. simpl. unfold add_arg. msteps. rewrite <- E1. simpl.
    rewrite Nat.eqb_refl. msteps. eexists. split; [reflexivity|]. destruct R. rewrite <- E1 in *. constructor; simpl; auto.
    + constructor; [|assumption]. simpl. change (mkentry t []) with (entry_of (mkdefine (key C n) (s_line s) (s_file s) t [])).
      now apply table_bind.
    + inversion r_next0; subst. constructor; assumption.
  - simpl. msteps. pose proof (r_args _ _ R) as Ra. destruct (n_scopes ns) as [|f l]; [congruence|].
    inversion Ra as [|[id tb] f' sets l' Hf Ra' E1 E2]; subst. simpl. msteps. rewrite <- E1. simpl.
    rewrite Nat.eqb_refl. msteps. eexists. split; [reflexivity|]. destruct R. rewrite <- E1 in *. constructor; simpl; auto.
    + now inversion r_ids0.
    + now inversion r_next0.
Qed.

Lemma step_scopes o ns d : length (n_scopes ns) = d ->
  length (n_scopes (name_step (c_case C) (c_counter C) o ns)) =
  match o with NOpen => S d | NClose => pred d | _ => d end.
Proof.
  intros <-. destruct o as [n v|n t|n| |n t|]; simpl; try reflexivity.
  - destruct (c_counter C); [reflexivity|]. destruct (meaning ns n); reflexivity.
  - destruct (n_labels ns n); [reflexivity|]. destruct (in_scopes (n_scopes ns) n); [|reflexivity]. simpl.
    induction (n_scopes ns) as [|f l IH]; simpl; [reflexivity|]. destruct (f n); simpl; [reflexivity|now rewrite IH].
  - destruct (n_scopes ns) eqn:E; simpl; [now rewrite E|]. reflexivity.
  - destruct (n_scopes ns); reflexivity.
Qed.

Lemma do_names_ok : forall l d s ns, rep s ns -> length (n_scopes ns) = d -> balanced d l ->
  Forall (op_ordinary (c_case C)) l ->
  exists s', do_names l s = Ok tt s' /\ rep s' (names_run (c_case C) (c_counter C) l ns).
Proof.
  induction l as [|o l IH]; intros d s ns R Hd Hb Ho.
  - exists s. split; [reflexivity|assumption].
  - inversion Ho; subst.
    destruct (name_step_ok o s ns R) as (s1 & E1 & R1); [assumption| |].
    { destruct o; simpl in Hb; auto; try tauto; destruct (n_scopes ns); simpl in *; (contradiction || discriminate || lia). }
    destruct (IH (match o with NOpen => S (length (n_scopes ns)) | NClose => pred (length (n_scopes ns)) | _ => length (n_scopes ns) end)
                s1 (name_step (c_case C) (c_counter C) o ns) R1) as (s2 & E2 & R2).
    + now apply step_scopes.
    + destruct o; simpl in Hb |- *; try tauto. destruct (length (n_scopes ns)); [contradiction|exact Hb].
    + assumption.
    + exists s2. split; [|exact R2]. cbn [do_names]. now rewrite (bind_ok _ _ _ _ _ E1).
Qed.
End Names.
