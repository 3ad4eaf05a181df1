(** Expansion of the text of an expression: names with a value are replaced by their digits. *)
From Verif Require Import Base BaseProofs State MonadProofs UtilsModel StorageModel ParserModel Knot
  UtilsSpec UtilsProofs StorageProofs ParserSpec ParserProofs AsmSpec.

(** The text cut into runs of name characters and single other characters. *)
Definition flush (cur : text) : list text := match cur with [] => [] | _ => [rev cur] end.
Fixpoint toks (cur t : text) : list text :=
  match t with
  | [] => flush cur
  | c :: t' => if is_name_char c then toks (c :: cur) t' else flush cur ++ [c] :: toks [] t'
  end.
Definition isrun (w : text) : bool := is_name_char (hd0 w).
Definition xp (f : text -> text) (t : text) : text :=
  flat_map (fun w => if isrun w then f w else w) (toks [] t).

Lemma toks_cut a : forall cur c b, is_name_char c = false -> toks cur (a ++ c :: b) = toks cur a ++ [c] :: toks [] b.
Proof.
  induction a as [|x a IH]; intros cur c b H; cbn [toks app].
  - now rewrite H.
  - destruct (is_name_char x); [now apply IH|]. rewrite (IH [] c b H). now rewrite <- app_assoc.
Qed.
Lemma toks_plain a b : Forall (fun c => is_name_char c = false) a -> toks [] (a ++ b) = map (fun c => [c]) a ++ toks [] b.
Proof. induction 1 as [|x a H F IH]; [reflexivity|]. cbn. rewrite H. cbn. now rewrite IH. Qed.
Lemma toks_left a b : is_name_char (hd0 b) = false -> toks [] (a ++ b) = toks [] a ++ toks [] b.
Proof.
  intros H. destruct b as [|c b]; [now rewrite !app_nil_r|]. cbn in H. rewrite (toks_cut a [] c b H). cbn. now rewrite H.
Qed.
Lemma toks_run_from w : Forall (fun c => is_name_char c = true) w -> forall cur, cur ++ w <> [] -> toks cur w = [rev cur ++ w].
Proof.
  induction 1 as [|c w H F IH]; intros cur N; cbn.
  - rewrite app_nil_r in *. destruct cur; [easy|]. reflexivity.
  - rewrite H, IH by easy. cbn. now rewrite <- app_assoc.
Qed.
Lemma toks_run w : w <> [] -> Forall (fun c => is_name_char c = true) w -> toks [] w = [w].
Proof. intros N F. now rewrite (toks_run_from w F []). Qed.
Lemma toks_join t : forall cur, flat_map (fun w => w) (toks cur t) = rev cur ++ t.
Proof.
  induction t as [|c t IH]; intros cur; cbn.
  - destruct cur; cbn; now rewrite ?app_nil_r.
  - destruct (is_name_char c).
    + rewrite IH. cbn. now rewrite <- app_assoc.
    + rewrite flat_map_app. cbn. rewrite IH. destruct cur; cbn; now rewrite ?app_nil_r.
Qed.

(** ** What the expander does *)
Definition good (C : cfg) (s : st) (w : text) : Prop :=
  isrun w = true -> find_arg (key C w) (s_args s) = None /\ tfind (key C w) (s_defines s) = None.
Definition by_label (C : cfg) (s : st) (w : text) : text :=
  match tfind (key C w) (s_labels s) with Some l => firstn 9 (dec (l_value l)) | None => w end.

Lemma search_none C w s : find_arg (key C w) (s_args s) = None -> tfind (key C w) (s_defines s) = None ->
  search_defines C w true s = Ok None s.
Proof.
  intros A D. unfold search_defines. rewrite !bind_get. cbn [negb]. rewrite A, D.
  destruct (eqbl _ _); [reflexivity|]. destruct (eqbl _ _); reflexivity.
Qed.
Lemma skip_seps_spec p : exists a, p = a ++ skip_seps p /\ Forall (fun c => is_name_char c = false) a.
Proof.
  induction p as [|c p (a & E & F)]; [exists []; now split|]. cbn [skip_seps].
  destruct (memb c separators) eqn:H; [|exists []; now split].
  exists (c :: a). split; [cbn; congruence|]. constructor; [|exact F].
  apply memb_In in H. cbn in H. repeat destruct H as [<-|H]; try reflexivity; easy.
Qed.
Lemma xp_nil f : xp f [] = []. Proof. reflexivity. Qed.
Lemma xp_plain f a b : Forall (fun c => is_name_char c = false) a -> xp f (a ++ b) = a ++ xp f b.
Proof.
  intros F. unfold xp. rewrite toks_plain by easy. rewrite flat_map_app. f_equal.
  induction F as [|x a H F IH]; [reflexivity|]. cbn. unfold isrun at 1. cbn. now rewrite H, IH.
Qed.
Lemma xp_run f w b : w <> [] -> Forall (fun c => is_name_char c = true) w -> is_name_char (hd0 b) = false ->
  xp f (w ++ b) = f w ++ xp f b.
Proof.
  intros N F H. unfold xp. rewrite toks_left by easy. rewrite toks_run by easy. cbn.
  destruct w as [|c w]; [easy|]. inversion F; subst. unfold isrun at 1. cbn [hd0]. now rewrite H2.
Qed.

Lemma expand_is C R depth s f : (forall w, f w = by_label C s w) -> forall fuel p,
  (length p < fuel)%nat -> ~ In 34 p -> Forall (good C s) (toks [] p) ->
  expand_loop C R fuel depth true p s = Ok (xp f p) s.
Proof.
  intros Hf. induction fuel as [|fuel IH]; intros p L Q G; [lia|].
  destruct p as [|c p]; [reflexivity|].
  cbn [expand_loop]. cbn [hd0].
  destruct (Z.eqb_spec c 34) as [->|_]; [exfalso; apply Q; now left|].
  set (t := c :: p) in *. assert (Lt : length t = S (length p)) by reflexivity.
  destruct (skip_name_spec t) as (a & E & F & S).
  remember (skip_to_name_end t) as nx eqn:Hnx.
  assert (Rest : forall out2 q, (length q <= length p)%nat -> ~ In 34 q -> Forall (good C s) (toks [] q) ->
    (let q' := skip_seps q in t <- expand_loop C R fuel depth true q' ;; ret ([] ++ out2 ++ seg q q' ++ t)) s = Ok (out2 ++ xp f q) s).
  { intros out2 q Lq Qq Gq. destruct (skip_seps_spec q) as (b & Eq & Fb). cbv zeta.
    assert (Hb : q = b ++ skip_seps q) by exact Eq. remember (skip_seps q) as r. subst q.
    rewrite toks_plain in Gq by exact Fb. apply Forall_app in Gq as (_ & Gr).
    rewrite app_length in Lq. rewrite (bind_ok _ _ s (xp f r) s).
    - rewrite seg_app. cbn. now rewrite xp_plain by exact Fb.
    - apply IH; [lia| |exact Gr]. intros I. apply Qq. apply in_app_iff. now right. }
  assert (Hnxt : is_name_char (hd0 nx) = false).
  { destruct S as [->|(x & y & -> & Hx)]; [reflexivity|exact Hx]. }
  destruct (Nat.ltb_spec (length nx) (length t)) as [Hl|Hl].
  - assert (N : a <> []) by (intros ->; cbn in E; subst t; rewrite <- E in Hl; lia).
    rewrite E. rewrite seg_app.
    assert (Tk : toks [] t = a :: toks [] nx) by (rewrite E, toks_left by exact Hnxt; now rewrite (toks_run a N F)).
    rewrite Tk in G. inversion G as [|? ? G1 G2]; subst x l.
    assert (Ra : isrun a = true) by (destruct a; [easy|]; now inversion F).
    destruct (G1 Ra) as (GA & GD).
    rewrite (bind_ok _ _ s None s) by (now apply search_none). rewrite bind_ret.
    unfold search_labels. rewrite bind_assoc, bind_get, bind_ret.
    assert (Hlen : (length nx <= length p)%nat) by (apply (f_equal (@length Z)) in E; rewrite app_length in E; destruct a; [easy|]; cbn in E; lia).
    assert (Qn : ~ In 34 nx) by (intros I; apply Q; rewrite E; apply in_app_iff; now right).
    rewrite <- E at 1. rewrite E. rewrite (xp_run f a nx N F Hnxt), (Hf a). unfold by_label.
    destruct (tfind (key C a) (s_labels s)); cbn [app]; now apply Rest.
  - assert (a = []) as -> by (apply (f_equal (@length Z)) in E; rewrite app_length in E; destruct a; [easy|]; cbn in E; lia).
    cbn in E. rewrite <- E in Hnxt. subst t. change (is_name_char c = false) in Hnxt.
    cbn [toks] in G. rewrite Hnxt in G. cbn in G. inversion G; subst.
    change (c :: p) with ([c] ++ p). rewrite xp_plain by (constructor; [exact Hnxt|constructor]).
    apply (Rest [c] p); [lia| |assumption]. intros I. apply Q. now right.
Qed.

(** ** Decimal digits *)
Lemma numeral_snoc b ds c : numeral b (ds ++ [c]) = numeral b ds * b + match digit_value c with Some d => d | None => 0 end.
Proof. unfold numeral. now rewrite fold_left_app. Qed.
Lemma dec_fuel_ok : forall fuel n acc, (1 <= fuel)%nat -> 0 <= n < 10 ^ Z.of_nat fuel ->
  exists ds, dec_fuel fuel n acc = ds ++ acc /\ ds <> [] /\ Forall (digit_of 10) ds /\ numeral 10 ds = n /\
    forall k, (1 <= k)%nat -> n < 10 ^ Z.of_nat k -> (length ds <= k)%nat.
Proof.
  induction fuel as [|fuel IH]; intros n acc F B; [lia|]. cbn [dec_fuel].
  assert (D : digit_value (48 + n mod 10) = Some (n mod 10)).
  { unfold digit_value. assert (0 <= n mod 10 < 10) by lia.
    replace ((48 <=? 48 + n mod 10) && (48 + n mod 10 <=? 57)) with true by lia. f_equal. lia. }
  assert (G : digit_of 10 (48 + n mod 10)) by (exists (n mod 10); split; [exact D|lia]).
  destruct (Z.eqb_spec (n / 10) 0) as [E|E].
  - exists [48 + n mod 10]. repeat split; [easy|now constructor| |cbn; lia].
    unfold numeral. cbn [fold_left]. rewrite D. lia.
  - destruct fuel as [|fuel]; [cbn in B; lia|].
    destruct (IH (n / 10) ((48 + n mod 10) :: acc)) as (ds & E1 & N & Fd & V & L); [lia| |].
    { rewrite Nat2Z.inj_succ, Z.pow_succ_r in B by lia. lia. }
    exists (ds ++ [48 + n mod 10]). rewrite <- app_assoc. repeat split.
    + exact E1.
    + now destruct ds.
    + apply Forall_app. split; [exact Fd|now constructor].
    + rewrite numeral_snoc, V, D. lia.
    + intros k K B2. destruct k as [|[|k]]; [lia|cbn in B2; lia|].
      rewrite app_length. cbn. rewrite Nat2Z.inj_succ, Z.pow_succ_r in B2 by lia.
      specialize (L (S k) ltac:(lia) ltac:(lia)). lia.
Qed.
Lemma dec_small v : 0 <= v <= 999999999 -> dec v <> [] /\ Forall (digit_of 10) (dec v) /\ numeral 10 (dec v) = v /\ firstn 9 (dec v) = dec v.
Proof.
  intros B. unfold dec. replace (v <? 0) with false by lia. unfold decmin.
  destruct (dec_fuel_ok (S (Z.to_nat (Z.log2 v))) v []) as (ds & E & N & F & V & L); [lia| |].
  { split; [lia|]. eapply Z.lt_le_trans; [apply log2_fuel; lia|]. apply Z.pow_le_mono_l. lia. }
  rewrite app_nil_r in E. rewrite E. repeat split; auto. apply firstn_all2. apply L; [lia|]. cbn. lia.
Qed.

(** ** The expanded text writes the expression with the known names replaced *)
Lemma plain_check a : forallb (fun c => negb (is_name_char c) && negb (c =? 34)) a = true ->
  Forall (fun c => is_name_char c = false /\ c <> 34) a.
Proof.
  rewrite forallb_forall, Forall_forall. intros H c I. specialize (H c I). destruct (is_name_char c); [easy|]. cbn in H. lia.
Qed.
Lemma blanks_plain b : Forall blank b -> Forall (fun c => is_name_char c = false /\ c <> 34) b.
Proof. intros F. eapply Forall_impl; [|exact F]. intros c [->|[->|[->| ->]]]; split; reflexivity || lia. Qed.
Section Subst.
Variable fold : text -> text.
Variable taken : text -> bool.
Variable now : table.
Hypothesis odd_taken : forall w, ~ name_start (hd0 w) -> taken w = false.
Hypothesis odd_lookup : forall w, ~ name_start (hd0 w) -> assoc fold now w = None.
Hypothesis now_small : forall n v, assoc fold now n = Some v -> 0 <= v <= 999999999.

Definition rep_name (w : text) : text := match assoc fold now w with Some v => dec v | None => w end.
Fixpoint subst_term (t : term) : term :=
  match t with
  | Leaf g (Name n) => Leaf g (match assoc fold now n with Some v => Num (Decimal (dec v)) | None => Name n end)
  | Leaf g a => Leaf g a
  | Par g e => Par g (subst e)
  end
with subst (e : expr) : expr :=
  match e with Single t => Single (subst_term t) | Bin e o t => Bin (subst e) o (subst_term t) end.

Definition clear (w : text) : Prop := isrun w = true -> taken w = false.
Definition fine (t t' : text) : Prop := Forall clear (toks [] t) /\ xp rep_name t = t' /\ ~ In 34 t.

Lemma fine_left a a' b b' : is_name_char (hd0 b) = false -> fine a a' -> fine b b' -> fine (a ++ b) (a' ++ b').
Proof.
  intros H (A1 & <- & A3) (B1 & <- & B3). unfold fine, xp. rewrite toks_left by exact H.
  repeat split; [now apply Forall_app|apply flat_map_app|]. rewrite in_app_iff. tauto.
Qed.
Lemma fine_plain a b b' : Forall (fun c => is_name_char c = false /\ c <> 34) a -> fine b b' -> fine (a ++ b) (a ++ b').
Proof.
  intros F (B1 & <- & B3).
  assert (F1 : Forall (fun c => is_name_char c = false) a) by (eapply Forall_impl; [|exact F]; now intros c (? & ?)).
  repeat split.
  - rewrite toks_plain by exact F1. apply Forall_app. split; [|exact B1]. apply Forall_map.
    eapply Forall_impl; [|exact F1]. intros c H. unfold clear, isrun. cbn. congruence.
  - now apply xp_plain.
  - rewrite in_app_iff. intros [I|I]; [|tauto]. rewrite Forall_forall in F. destruct (F _ I) as (_ & X). now apply X.
Qed.
Lemma fine_nil : fine [] []. Proof. split; [constructor|]. now split. Qed.
Lemma fine_run w : w <> [] -> Forall (fun c => is_name_char c = true) w -> taken w = false -> fine w (rep_name w).
Proof.
  intros N F T. repeat split.
  - rewrite toks_run by easy. constructor; [now intros _|constructor].
  - rewrite <- (app_nil_r w) at 1. rewrite xp_run by easy. cbn. apply app_nil_r.
  - intros I. rewrite Forall_forall in F. now apply F in I.
Qed.
Lemma fine_odd w : w <> [] -> Forall (fun c => is_name_char c = true) w -> ~ name_start (hd0 w) -> fine w w.
Proof.
  intros N F S. replace w with (rep_name w) at 2; [apply fine_run; auto|]. unfold rep_name. now rewrite odd_lookup.
Qed.
Lemma fine_chars a : Forall (fun c => is_name_char c = false /\ c <> 34) a -> fine a a.
Proof. intros F. rewrite <- (app_nil_r a). apply fine_plain; [exact F|apply fine_nil]. Qed.
Lemma fine_hidden w : w <> [] -> Forall (fun c => is_name_char c = true) w -> taken w = false -> assoc fold now w = None -> fine w w.
Proof. intros N F T L. replace w with (rep_name w) at 2; [now apply fine_run|]. unfold rep_name. now rewrite L. Qed.

Lemma sign_plain g : Forall (fun c => is_name_char c = false /\ c <> 34) (sign_text g).
Proof. apply plain_check. now destruct g. Qed.
Lemma op_plain o : o <> NotEqual -> Forall (fun c => is_name_char c = false /\ c <> 34) (spelling o).
Proof. intros H. apply plain_check. now destruct o. Qed.

Definition hidden_ok (w : text) : Prop :=
  taken w = false /\ taken (w ++ [33]) = false /\ assoc fold now w = None /\ assoc fold now (w ++ [33]) = None /\ ~ In 34 w.
Lemma may_wait_hidden {P : Params} tk e : (forall w, taken w = tk w || isSome (assoc fold params w)) ->
  may_wait fold tk now e = true -> Forall hidden_ok (hidden e).
Proof.
  intros Tk H. unfold may_wait in H. apply Bool.andb_true_iff in H as (H & _). revert H.
  rewrite forallb_forall, Forall_forall. intros H w I. specialize (H w I).
  apply Bool.negb_true_iff in H. repeat (apply Bool.orb_false_iff in H as (H & ?)).
  assert (L : forall u, isSome (lookup fold now u) = false -> isSome (assoc fold params u) = false /\ assoc fold now u = None).
  { intros u. unfold lookup, isSome. now destruct (assoc fold params u), (assoc fold now u). }
  destruct (L w) as (L1 & L2); [assumption|]. destruct (L (w ++ [33])) as (L3 & L4); [assumption|].
  unfold hidden_ok. rewrite !Tk, L1, L3, !Bool.orb_false_r. repeat (split; [assumption|]). rewrite <- memb_In. congruence.
Qed.

Lemma digit_name_char base c : digit_of base c -> is_name_char c = true.
Proof. intros H. unfold is_name_char. now rewrite (digit_alnum base c H). Qed.
Lemma digits_name base ds : Forall (digit_of base) ds -> Forall (fun c => is_name_char c = true) ds.
Proof. intros F. eapply Forall_impl; [|exact F]. intros c. apply digit_name_char. Qed.
Lemma digit10_start c : digit_of 10 c -> ~ name_start c.
Proof. intros H. apply digit10 in H. unfold isdigit in H. unfold name_start. lia. Qed.
Lemma base10 b c : b <= 10 -> digit_of b c -> digit_of 10 c.
Proof. intros L (d & E & D). exists d. split; [exact E|lia]. Qed.

(** Words that begin with a digit. *)
Lemma fine_word w : w <> [] -> Forall (fun c => is_name_char c = true) w -> digit_of 10 (hd0 w) ->
  fine w w /\ fine (w ++ [33]) (w ++ [33]).
Proof.
  intros N F D. apply digit10_start in D. split; apply fine_odd; auto.
  - now destruct w.
  - apply Forall_app. split; [exact F|]. now constructor.
  - now destruct w.
Qed.
Lemma literal_fine l : literal_ok l -> Forall hidden_ok (atom_hidden (Num l)) ->
  fine (literal_text l) (literal_text l) /\ fine (literal_text l ++ [33]) (literal_text l ++ [33]).
Proof.
  intros (N & F & X) H. destruct l as [ds|ds h|ds|ds b|ds|ds d]; cbn [literal_text literal_digits literal_base atom_hidden] in *.
  - inversion H as [|? ? (T1 & T2 & L1 & L2 & Q) _]; subst. apply digits_name in F.
    split.
    + apply (fine_plain [36]); [now apply plain_check|]. now apply fine_hidden.
    + apply (fine_plain [36] (ds ++ [33])); [now apply plain_check|].
      apply fine_hidden; auto; [now destruct ds|]. apply Forall_app. split; [exact F|now constructor].
  - destruct X as (Hh & D). apply fine_word.
    + now destruct ds.
    + apply Forall_app. split; [now apply digits_name with 16|]. constructor; [destruct Hh; now subst|constructor].
    + destruct ds; [easy|exact D].
  - assert (D : digit_of 10 (hd0 ds)) by (destruct ds; [easy|]; inversion F; apply base10 with 2; [lia|assumption]).
    apply digits_name in F. destruct (fine_word ds N F D) as (A & B). split.
    + apply (fine_plain [37]); [now apply plain_check|exact A].
    + apply (fine_plain [37] (ds ++ [33])); [now apply plain_check|exact B].
  - assert (D : digit_of 10 (hd0 (ds ++ [b]))) by (destruct ds; [easy|]; inversion F; apply base10 with 2; [lia|assumption]).
    apply fine_word; auto; [now destruct ds|]. apply Forall_app. split; [now apply digits_name with 2|].
    constructor; [destruct X; now subst|constructor].
  - assert (D : digit_of 10 (hd0 ds)) by (destruct ds; [easy|]; now inversion F).
    apply fine_word; auto. now apply digits_name with 10.
  - assert (D : digit_of 10 (hd0 (ds ++ [d]))) by (destruct ds; [easy|]; now inversion F).
    apply fine_word; auto; [now destruct ds|]. apply Forall_app. split; [now apply digits_name with 10|].
    constructor; [destruct X; now subst|constructor].
Qed.
Lemma fine_one c : c <> 34 -> taken [c] = false -> assoc fold now [c] = None -> fine [c] [c].
Proof.
  intros Q T L. destruct (is_name_char c) eqn:E.
  - apply fine_hidden; auto; easy.
  - apply fine_chars. now repeat constructor.
Qed.
Lemma fine_quoted a c : Forall (fun c => is_name_char c = false /\ c <> 34) a -> Forall hidden_ok [[c]] ->
  fine (a ++ c :: [39]) (a ++ c :: [39]) /\ fine ((a ++ c :: [39]) ++ [33]) ((a ++ c :: [39]) ++ [33]).
Proof.
  intros F H. inversion H as [|? ? (T1 & _ & L1 & _ & Q) _]; subst.
  assert (Qc : c <> 34) by (intros ->; apply Q; now left).
  assert (O : fine [33] [33]).
  { apply fine_odd; [easy|now constructor|]. cbn. unfold name_start. lia. }
  split; rewrite <- ?app_assoc; apply fine_plain; auto.
  - change (c :: [39]) with ([c] ++ [39]). apply fine_left; [reflexivity|now apply fine_one|].
    apply fine_chars. now apply plain_check.
  - cbn [app]. change (c :: 39 :: [33]) with ([c] ++ [39] ++ [33]). apply fine_left; [reflexivity|now apply fine_one|].
    apply fine_plain; [now apply plain_check|exact O].
Qed.

Lemma atom_fine a : atom_ok a -> Forall hidden_ok (atom_hidden a) -> (forall n, a = Name n -> taken n = false) ->
  fine (atom_text a) (match a with Name n => rep_name n | _ => atom_text a end) /\
  ((forall n, a <> Name n) -> fine (atom_text a ++ [33]) (atom_text a ++ [33])).
Proof.
  intros O H T. destruct a as [l| |n|c|c]; cbn [atom_text].
  - destruct (literal_fine l O H). now split.
  - split; [apply fine_chars; now apply plain_check|]. intros _.
    apply (fine_plain [36] [33]); [now apply plain_check|].
    apply fine_odd; [easy|now constructor|]. cbn. unfold name_start. lia.
  - destruct O as (_ & (c & t & -> & S) & F). split; [|intros X; now destruct (X (c :: t))].
    apply fine_run; [easy| |now apply T]. eapply Forall_impl; [|exact F]. intros x. apply name_char_iff.
  - destruct (fine_quoted [39] c) as (A & B); [now apply plain_check|exact H|]. now split.
  - destruct (fine_quoted [39; 92] c) as (A & B); [now apply plain_check|exact H|]. now split.
Qed.

Lemma subst_ends : (forall t, term_name (subst_term t) = true -> term_name t = true) /\
  (forall e, ends_name (subst e) = true -> ends_name e = true).
Proof.
  split.
  - intros [g a|g e]; [|easy]. now destruct a.
  - intros [t|e o t]; cbn; destruct t as [g a|g e']; try easy; now destruct a.
Qed.
Lemma not_in_app {A} (x : A) a b : ~ In x a -> ~ In x b -> ~ In x (a ++ b).
Proof. rewrite in_app_iff. tauto. Qed.

Lemma expands : (forall t tx, writes_term t tx -> Forall hidden_ok (term_hidden t) ->
    Forall (fun n => taken n = false) (term_names t) ->
    exists tx', fine tx tx' /\ writes_term (subst_term t) tx' /\ (term_name t = false -> fine (tx ++ [33]) (tx' ++ [33]))) /\
  (forall e te, writes e te -> Forall hidden_ok (hidden e) -> Forall (fun n => taken n = false) (names_of e) ->
    exists te', fine te te' /\ writes (subst e) te' /\ (ends_name e = false -> fine (te ++ [33]) (te' ++ [33]))).
Proof.
  apply term_expr_ind.
  - intros g a tx W H T. inversion W as [? w ? O B G|]; subst.
    assert (Ta : forall n, a = Name n -> taken n = false) by (intros n ->; now inversion T).
    destruct (atom_fine a O H Ta) as (A & A').
    assert (Fp : Forall (fun c => is_name_char c = false /\ c <> 34) (sign_text g ++ w))
      by (apply Forall_app; split; [apply sign_plain|now apply blanks_plain]).
    exists (sign_text g ++ w ++ match a with Name n => rep_name n | _ => atom_text a end).
    rewrite !(app_assoc (sign_text g)). split; [|split].
    + now apply fine_plain.
    + rewrite <- !app_assoc. destruct a as [l| |n|c|c]; cbn [subst_term]; try (now constructor).
      unfold rep_name. destruct (assoc fold now n) as [v|] eqn:E.
      * apply (W_leaf g w (Num (Decimal (dec v)))); auto. cbn [atom_ok].
        destruct (dec_small v (now_small _ _ E)) as (N & F & _ & _). now repeat split.
      * now apply (W_leaf g w (Name n)).
    + intros Hn. assert (Na : forall n, a <> Name n) by (intros n ->; easy).
      rewrite <- !(app_assoc (sign_text g ++ w)). apply fine_plain; [exact Fp|].
      specialize (A' Na). now destruct a.
  - intros g e IH tx W H T. inversion W as [|? w w1 ? te w2 B G B1 We B2]; subst.
    destruct (IH te We H T) as (te' & F & W' & _).
    exists (sign_text g ++ w ++ 40 :: w1 ++ te' ++ w2 ++ [41]).
    assert (Fp : Forall (fun c => is_name_char c = false /\ c <> 34) (sign_text g ++ w ++ 40 :: w1)).
    { apply Forall_app. split; [apply sign_plain|]. apply Forall_app. split; [now apply blanks_plain|].
      constructor; [split; [reflexivity|lia]|now apply blanks_plain]. }
    assert (Fs : Forall (fun c => is_name_char c = false /\ c <> 34) (w2 ++ [41])).
    { apply Forall_app. split; [now apply blanks_plain|]. now apply plain_check. }
    assert (Hd : forall r, is_name_char (hd0 ((w2 ++ [41]) ++ r)) = false).
    { intros r. destruct w2; [reflexivity|]. now inversion Fs. }
    assert (E : forall x r, (sign_text g ++ w ++ 40 :: w1 ++ x ++ w2 ++ [41]) ++ r = (sign_text g ++ w ++ 40 :: w1) ++ x ++ (w2 ++ [41]) ++ r).
    { intros x r. rewrite <- !app_assoc. cbn. now rewrite <- !app_assoc. }
    cbn [subst_term]. split; [|split].
    + rewrite <- (app_nil_r (sign_text g ++ w ++ 40 :: w1 ++ te ++ w2 ++ [41])), <- (app_nil_r (sign_text g ++ w ++ 40 :: w1 ++ te' ++ w2 ++ [41])), !E.
      apply fine_plain; [exact Fp|]. apply fine_left; [apply Hd|exact F|]. rewrite app_nil_r. now apply fine_chars.
    + now constructor.
    + intros _. rewrite !E. apply fine_plain; [exact Fp|]. apply fine_left; [apply Hd|exact F|].
      apply fine_plain; [exact Fs|]. apply fine_odd; [easy|now constructor|]. cbn. unfold name_start. lia.
  - intros t IH te W H T. inversion W; subst. destruct (IH te H1 H T) as (t' & A & B & D).
    exists t'. split; [exact A|]. split; [now constructor|exact D].
  - intros e IHe o t IHt te W H T. inversion W as [|? te0 w1 ? w2 ? tx We B1 B2 Wt G]; subst.
    cbn [hidden names_of] in H, T. apply Forall_app in H as (H1 & H2). apply Forall_app in T as (T1 & T2).
    destruct (IHe te0 We H1 T1) as (te' & F & W1 & X). destruct (IHt tx Wt H2 T2) as (tx' & Ft & W2 & Y).
    exists (te' ++ w1 ++ spelling o ++ w2 ++ tx').
    assert (Fw1 := blanks_plain w1 B1). assert (Fw2 := blanks_plain w2 B2).
    assert (Both : forall r r', fine r r' -> fine (te0 ++ w1 ++ spelling o ++ w2 ++ r) (te' ++ w1 ++ spelling o ++ w2 ++ r')).
    { intros r r' Fr.
      assert (Dn : {o = NotEqual} + {o <> NotEqual}) by (destruct o; (now left) || (now right)).
      destruct Dn as [->|No].
      - cbn [spelling]. change (zs "!=") with ([33] ++ [61]). rewrite <- !app_assoc.
        assert (Tail : fine ([61] ++ w2 ++ r) ([61] ++ w2 ++ r')).
        { apply fine_plain; [now apply plain_check|]. now apply fine_plain. }
        destruct w1 as [|b w1].
        + change (fine (te0 ++ [33] ++ [61] ++ w2 ++ r) (te' ++ [33] ++ [61] ++ w2 ++ r')).
          rewrite (app_assoc te0), (app_assoc te').
          apply fine_left; [reflexivity| |exact Tail]. apply X.
          destruct (ends_name e) eqn:En; [|reflexivity]. now specialize (G eq_refl eq_refl).
        + apply fine_left; [inversion Fw1; tauto|exact F|]. apply fine_plain; [exact Fw1|].
          apply fine_left; [reflexivity| |exact Tail]. apply fine_odd; [easy|now constructor|]. cbn. unfold name_start. lia.
      - assert (Fo := op_plain o No).
        apply fine_left.
        + assert (Fa : Forall (fun c => is_name_char c = false /\ c <> 34) (w1 ++ spelling o)) by (now apply Forall_app).
          rewrite app_assoc. destruct (w1 ++ spelling o) as [|c q] eqn:Eq; [destruct w1, o; easy|].
          cbn. inversion Fa; tauto.
        + exact F.
        + apply fine_plain; [exact Fw1|]. apply fine_plain; [exact Fo|]. now apply fine_plain. }
    split; [now apply Both|]. split.
    + cbn [subst]. constructor; auto. intros -> En. apply G; auto. now apply (proj2 subst_ends).
    + intros H. rewrite <- !app_assoc. apply Both. apply Y. exact H.
Qed.
Lemma nest_subst : (forall t, nest_term (subst_term t) = nest_term t) /\ (forall e, nest (subst e) = nest e).
Proof.
  apply term_expr_ind.
  - intros g a. destruct a; reflexivity.
  - intros g e H. cbn. now rewrite H.
  - intros t H. exact H.
  - intros e H o t H'. cbn. now rewrite H, H'.
Qed.

(** The value does not change when the replaced names have those values. *)
Lemma value_subst wraps here names : (forall n v, assoc fold now n = Some v -> names n = Some v) ->
  (forall t, term_value wraps here names (subst_term t) = term_value wraps here names t) /\
  (forall e, value wraps here names (subst e) = value wraps here names e).
Proof.
  intros H. apply term_expr_ind.
  - intros g a. destruct a as [l| |n|c|c]; try reflexivity. cbn [subst_term term_value].
    destruct (assoc fold now n) as [v|] eqn:E; [|reflexivity].
    f_equal. cbn [atom_value]. rewrite (H _ _ E).
    destruct (dec_small v (now_small _ _ E)) as (_ & _ & V & _). unfold literal_number. cbn [literal_base literal_digits].
    rewrite V. pose proof (now_small _ _ E). replace (v <=? 4294967295) with true by lia. f_equal.
    unfold signed32. cbv zeta. rewrite Z.mod_small by lia. replace (v <? 2147483648) with true by lia. reflexivity.
  - intros g e IH. change (andthen (value wraps here names (subst e)) (apply_sign wraps g) = andthen (value wraps here names e) (apply_sign wraps g)). now rewrite IH.
  - intros t IH. exact IH.
  - intros e IHe o t IHt. 
    change (andthen (value wraps here names (subst e)) (fun a => andthen (term_value wraps here names (subst_term t)) (compute wraps o a)) =
      andthen (value wraps here names e) (fun a => andthen (term_value wraps here names t) (compute wraps o a))). now rewrite IHe, IHt.
Qed.
End Subst.
(** With fewer names known, the value is the same or a name is missing. *)
Lemma value_fewer wraps here (known names : text -> option Z) : (forall n v, known n = Some v -> names n = Some v) ->
  (forall t, term_value wraps here known t = term_value wraps here names t \/
             term_value wraps here known t = Err 262) /\
  (forall e, value wraps here known e = value wraps here names e \/ value wraps here known e = Err 262).
Proof.
  intros H. apply term_expr_ind.
  - intros g a. destruct a as [l| |n|c|c]; try (now left). cbn.
    destruct (known n) as [v|] eqn:E; [rewrite (H _ _ E); now left|now right].
  - intros g e IH. 
    change (andthen (value wraps here known e) (apply_sign wraps g) = andthen (value wraps here names e) (apply_sign wraps g) \/
      andthen (value wraps here known e) (apply_sign wraps g) = Err 262). destruct IH as [-> | ->]; [now left|now right].
  - intros t IH. exact IH.
  - intros e IHe o t IHt. 
    change (andthen (value wraps here known e) (fun a => andthen (term_value wraps here known t) (compute wraps o a)) =
      andthen (value wraps here names e) (fun a => andthen (term_value wraps here names t) (compute wraps o a)) \/
      andthen (value wraps here known e) (fun a => andthen (term_value wraps here known t) (compute wraps o a)) = Err 262). destruct IHe as [-> | ->]; [|now right].
    destruct (value wraps here names e); cbn; try now left. destruct IHt as [-> | ->]; [now left|now right].
Qed.
