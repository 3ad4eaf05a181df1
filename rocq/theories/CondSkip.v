(** Skipping over conditional blocks. *)
From Verif Require Import Base BaseProofs State MonadProofs UtilsModel ErrorsModel StorageModel ParserModel PreopModel Knot
  UtilsSpec UtilsProofs ParserSpec MatchSpec AsmSpec CondSpec.

(** ** Lines *)
Definition lineish (q : text) : Prop := exists body cr, q = body ++ eol_text cr /\ no_break body.
Lemma eol_last cr : exists u, eol_text cr = u ++ [10].
Proof. destruct cr; [exists [13]|exists []]; reflexivity. Qed.
Definition closed (q : text) : Prop := exists u, q = u ++ [10].
Lemma lineish_closed q : lineish q -> closed q.
Proof. intros (b & cr & -> & _). destruct (eol_last cr) as (u & ->). exists (b ++ u). apply app_assoc. Qed.
Lemma closed_tail c d q : closed (c :: d :: q) -> closed (d :: q).
Proof. intros ([|x u] & E); [discriminate|]. injection E as -> E. now exists u. Qed.

Lemma starts_prefix w : forallb (fun c => negb (tolower c =? 10)) w = true -> forall q more, closed q -> prefixb_ci w (q ++ more) = starts w q.
Proof.
  induction w as [|c w IH]; intros F q more K; [destruct q; reflexivity|]. cbn in F. apply andb_true_iff in F as (F1 & F2).
  destruct q as [|d q]; [destruct K as ([|? ?] & K); discriminate|]. cbn [app prefixb_ci starts eqbl_ci]. rewrite andb_true_r.
  destruct q as [|d2 q].
  - destruct K as ([|x u] & K); [|destruct u; discriminate]. injection K as ->. replace (tolower c =? tolower 10) with false by (change (tolower 10) with 10; lia). reflexivity.
  - f_equal. apply IH; [exact F2|]. now apply closed_tail in K.
Qed.

Lemma isblank_iff c : isblank c = true <-> blank c.
Proof. unfold isblank, blank. cbn. lia. Qed.
Lemma calm_blanks b v fresh : Forall blank b -> fresh = true -> calm fresh (b ++ v) = true -> calm true v = true.
Proof.
  intros F ->. induction F as [|c b B F IH]; [auto|]. cbn [app calm]. intros H. apply andb_true_iff in H as (_ & H). apply IH.
  rewrite (proj2 (isblank_iff c) B) in H. now rewrite orb_true_r in H.
Qed.
Lemma calm_slash u q fresh : calm fresh (u ++ 92 :: q) = true -> calm true q = true.
Proof.
  revert fresh. induction u as [|c u IH]; intros fresh; cbn [app calm]; intros H; apply andb_true_iff in H as (_ & H); [exact H|]. eapply IH. exact H.
Qed.
Lemma calm_weak t : calm true t = true -> calm false t = true.
Proof.
  assert (W : forall t, calm true t = true -> calm false t = true).
  { clear. induction t as [|c t IH]; [reflexivity|]. cbn [calm andb]. intros H. apply andb_true_iff in H as (_ & H).
    destruct (c =? 92); [exact H|]. cbn [orb] in *. destruct (isblank c); [now apply IH|exact H]. }
  apply W.
Qed.
Lemma calm_first q more : calm true q = true -> closed q ->
  exists v, skip_ws (q ++ more) = v ++ more /\ v <> [] /\ hd0 v <> 41 /\ existsb (fun w => starts w v) cond_words = false /\ closed v.
Proof.
  induction q as [|c q IH]; intros Cm K; [destruct K as ([|? ?] & K); discriminate|].
  cbn [calm] in Cm. apply andb_true_iff in Cm as (C1 & C2). apply negb_true_iff, orb_false_iff in C1 as (C0 & C1).
  destruct (isblank c) eqn:B.
  - assert (Bc : blank c) by now apply isblank_iff. cbn [app]. change (c :: q ++ more) with ([c] ++ q ++ more). rewrite skip_ws_app by (constructor; [exact Bc|constructor]).
    apply IH; [now rewrite orb_true_r in C2|]. destruct q as [|d q]; [destruct K as ([|x u] & K); [injection K as ->; discriminate|destruct u; discriminate]|]. now apply closed_tail in K.
  - exists (c :: q). cbn [app]. rewrite skip_ws_nonblank; [|intros X; apply isblank_iff in X; congruence]. repeat split; auto; [discriminate|cbn [hd0]; lia].
Qed.

(** ** The next code line *)
Lemma next_expr_plain delims p : hd0 (skip_ws p) <> 41 -> exists a, p = a ++ next_expr p delims /\ ends_at delims (next_expr p delims).
Proof.
  intros N. unfold next_expr. destruct (skip_ws_spec p) as (a & E & _ & _).
  replace (hd0 (skip_ws p) =? 41) with false by lia. rewrite orb_false_r. destruct (is_eol (skip_ws p)) eqn:B.
  - exists a. split; [exact E|]. destruct (skip_ws p) as [|c t] eqn:S; [left; reflexivity|]. right. exists c, t. split; [reflexivity|]. right. now apply is_eol_cons in B.
  - destruct (next_expr_loop_total delims (3 * length (skip_ws p) + 5) scan0 [] (skip_ws p) (skip_ws p) (skip_ws p)) as (q & w' & E1 & E2 & E3).
    + now apply behind_0.
    + unfold weight. simpl. lia.
    + rewrite E1. exists (a ++ rev w'). split; [|exact E3]. rewrite <- app_assoc, <- E2. exact E.
Qed.
Lemma skip_cr_len p : (length (skip_lf (skip_cr p)) <= length p)%nat.
Proof.
  assert (A : forall q, (length (skip_lf q) <= length q)%nat) by (intros [|c q]; cbn; [lia|destruct (c =? 10); cbn; lia]).
  destruct p as [|c p]; [cbn; lia|]. unfold skip_cr. destruct (_ =? _); [specialize (A p); cbn [length]; lia|apply A].
Qed.
Lemma skip_next_len p : (length (skip_to_next_line p) <= length p)%nat.
Proof.
  unfold skip_to_next_line. pose proof (skip_cr_len (to_line_break p)). assert (length (to_line_break p) <= length p)%nat; [|lia].
  clear. induction p as [|c p IH]; [cbn; lia|]. cbn [to_line_break]. destruct (_ || _); cbn [length]; lia.
Qed.
Lemma skip_eol cr more : skip_lf (skip_cr (eol_text cr ++ more)) = more.
Proof. destruct cr; reflexivity. Qed.
Lemma lineish_next q more : lineish q -> skip_to_next_line (q ++ more) = more.
Proof.
  intros (b & cr & -> & F). rewrite <- app_assoc. apply skip_to_next_line_spec.
  - eapply Forall_impl; [|exact F]. intros c (H1 & H2). unfold line_break. lia.
  - destruct cr; constructor.
Qed.
Lemma code_step q more : lineish q -> hd0 (skip_ws (q ++ more)) <> 41 ->
  (length (next_code_line (q ++ more)) <= length more)%nat \/
  exists u q', q = u ++ 92 :: q' /\ lineish q' /\ next_code_line (q ++ more) = q' ++ more.
Proof.
  intros L N. destruct (next_expr_plain [92; 59; 13; 10] _ N) as (a & E & X). set (r := next_expr (q ++ more) _) in *.
  assert (Sh : (length (next_code_line (q ++ more)) <= length r)%nat).
  { unfold next_code_line. fold r. destruct (hd0 r =? 59); [apply skip_next_len|]. eapply Nat.le_trans; [apply skip_cr_len|]. destruct (hd0 r =? 92); [destruct r; cbn; lia|lia]. }
  apply app_eq_app in E as (l & [(E1 & E2)|(E1 & E2)]); [|left; apply (f_equal (@length Z)) in E2; rewrite app_length in E2; lia].
  destruct l as [|c l]; [left; rewrite E2 in Sh; exact Sh|].
  destruct X as [X|(c' & t & X & Y)]; [rewrite X in E2; discriminate|]. assert (c' = c) as -> by (rewrite X in E2; now injection E2).
  assert (Yc : line_ender c) by (unfold line_ender in *; cbn in Y; intuition lia). clear Y X.
  destruct L as (b & cr & Eq & F). rewrite Eq in E1.
  unfold next_code_line. fold r. rewrite E2. cbn [hd0 app tl].
  symmetry in E1. apply app_eq_app in E1 as (l2 & [(G1 & G2)|(G1 & G2)]).
  - (* at the line break *)
    destruct cr; cbn [eol_text] in G2.
    + destruct l2 as [|x [|y l2]]; cbn [app] in G2; [injection G2; intros; subst; left; cbn; lia|injection G2; intros; subst; left; cbn; lia|].
      destruct l2; cbn in G2; discriminate.
    + destruct l2 as [|x l2]; cbn [app] in G2; [injection G2; intros; subst; left; cbn; lia|]. destruct l2; discriminate.
  - destruct l2 as [|x l2].
    + cbn [app] in G2. destruct cr; cbn [eol_text] in G2; injection G2; intros; subst; left; cbn; lia.
    + cbn [app] in G2. injection G2 as -> ->. rewrite G1 in F. unfold no_break in F. rewrite Forall_app in F. destruct F as (_ & F). inversion F as [|? ? Fx Fl]; subst.
      assert (Cx : x = 59 \/ x = 92) by (unfold line_ender in Yc; lia). destruct Cx as [-> | ->].
      * left. cbn [Z.eqb Pos.eqb]. change (59 :: (l2 ++ eol_text cr) ++ more) with ((59 :: l2 ++ eol_text cr) ++ more). rewrite lineish_next; [lia|]. exists (59 :: l2), cr. split; [reflexivity|]. constructor; [lia|exact Fl].
      * cbn [Z.eqb Pos.eqb]. destruct l2 as [|y l2].
        -- left. cbn [app]. rewrite skip_eol. lia.
        -- right. exists a, ((y :: l2) ++ eol_text cr). split; [now rewrite <- app_assoc|]. split; [exists (y :: l2), cr; now split|].
           inversion Fl; subst. rewrite <- app_assoc. cbn [app]. unfold skip_cr. replace (y =? 13) with false by lia. unfold skip_lf. replace (y =? 10) with false by lia. reflexivity.
Qed.

(** ** Skipping lines *)
Scheme blocks_mut := Induction for blocks Sort Prop with alt_mut := Induction for alt Sort Prop.
Combined Scheme blocks_alt_ind from blocks_mut, alt_mut.

Definition one_line (w : text) : bool := forallb (fun c => negb (tolower c =? 10)) w.
Definition stop_words : list text := [zs "#else"; zs "#elif"; zs "#endif"].
Section Skip.
Variable R : fns.
Variable words : list text.
(** Texts without the words that are not looked for in conditionals. *)
Variable lacks : text -> Prop.
Hypothesis lacks_app : forall a b, lacks (a ++ b) -> lacks a /\ lacks b.
Hypothesis Hw : forall w, In w words -> In w stop_words \/ (one_line w = true /\ forall v, lacks v -> starts w v = false).
Variable s : st.
Hypothesis no_err : s_erroc s = false.

Lemma cond_line w : In w cond_words -> one_line w = true.
Proof. intros I. simpl in I; repeat (destruct I as [<-|I]; [reflexivity|]); contradiction. Qed.
Lemma words_line w : In w words -> one_line w = true.
Proof. intros I. destruct (Hw w I) as [J|(J & _)]; [|exact J]. apply cond_line. simpl in *. tauto. Qed.
Lemma word_prefix w q more : one_line w = true -> closed q -> prefixb_ci w (q ++ more) = starts w q.
Proof. intros I K. now apply starts_prefix. Qed.
Lemma calm_words q more level : lacks q -> calm true q = true -> closed q ->
  hd0 (skip_ws (q ++ more)) <> 41 /\ line_has_word (q ++ more) (zs "#IF") = false /\
  line_has_word (q ++ more) (zs "#ENDIF") = false /\ (level =? 0) && existsb (fun w => line_has_word (q ++ more) w) words = false.
Proof.
  intros La Cm K. destruct (calm_first q more Cm K) as (v & Ev & Nv & N41 & Ex & Kv). unfold line_has_word.
  assert (Lv : lacks v).
  { destruct (skip_ws_spec (q ++ more)) as (a & E & _). rewrite Ev, app_assoc in E. apply app_inv_tail in E. rewrite E in La. now apply lacks_app in La. }
  rewrite Ev.
  assert (G : forall w, In w cond_words -> prefixb_ci w (v ++ more) = false).
  { intros w I. rewrite word_prefix by auto using cond_line. destruct (starts w v) eqn:Q; [|reflexivity]. rewrite <- Ex. symmetry. apply existsb_exists. eauto. }
  split; [destruct v; [congruence|exact N41]|]. split; [apply (G (zs "#if")); simpl; auto|]. split; [apply (G (zs "#endif")); simpl; auto 10|].
  destruct (existsb _ words) eqn:Q; [|apply andb_false_r]. apply existsb_exists in Q as (w & I & Q). destruct (Hw w I) as [J|(J & Ab)].
  - rewrite G in Q; [discriminate|]. simpl in *. tauto.
  - rewrite word_prefix, Ab in Q by auto. discriminate.
Qed.
Lemma inner_calm more : forall n q level fuel, (length q <= n)%nat -> (length q < fuel)%nat -> lineish q -> lacks q -> calm true q = true ->
  skip_inner fuel words level (q ++ more) more s = Ok (inr level) s.
Proof.
  induction n as [|n IH]; intros q level fuel Ln Lf L La Cm.
  { destruct L as (b & cr & -> & _). rewrite app_length in Ln. destruct cr; cbn in Ln; lia. }
  destruct fuel as [|fuel]; [lia|]. destruct (calm_words q more level La Cm (lineish_closed q L)) as (N & E1 & E2 & E3).
  cbn [skip_inner]. rewrite E1, E2, E3, andb_false_r, bind_get, no_err.
  destruct (code_step q more L N) as [X|(u & q' & -> & L' & X)].
  - replace (Nat.ltb _ _) with false; [reflexivity|]. symmetry. apply Nat.ltb_ge. exact X.
  - rewrite X. rewrite !app_length in *. cbn [length] in *. destruct (Nat.ltb _ _); cbn [andb negb]; [|reflexivity]. apply IH; [lia|lia|exact L'| |now apply calm_slash in Cm]. apply lacks_app in La as (_ & La). now apply (lacks_app [92]) in La.
Qed.
Lemma inner_next more q level fuel : (length q < fuel)%nat -> lineish q -> lacks q -> calm false q = true -> hd0 (skip_ws (q ++ more)) <> 41 ->
  (e <- get s_erroc ;; if Nat.ltb (length more) (length (next_code_line (q ++ more))) && negb e
      then skip_inner fuel words level (next_code_line (q ++ more)) more else ret (inr level)) s = Ok (inr level) s.
Proof.
  intros Lf L La Cm N. rewrite bind_get, no_err. destruct (code_step q more L N) as [X|(u & q' & -> & L' & X)].
  - replace (Nat.ltb _ _) with false; [reflexivity|]. symmetry. apply Nat.ltb_ge. exact X.
  - rewrite X. rewrite !app_length in *. cbn [length] in *. destruct (Nat.ltb _ _); cbn [andb negb]; [|reflexivity]. apply (inner_calm more (length q')); [lia|lia|exact L'| |now apply calm_slash in Cm]. apply lacks_app in La as (_ & La). now apply (lacks_app [92]) in La.
Qed.

(** A directive line. *)
Definition directive (q v : text) : Prop := lineish q /\ calm false q = true /\ (forall more, skip_ws (q ++ more) = 35 :: v ++ more) /\ closed (35 :: v).
Lemma directive_word q v more w : directive q v -> one_line w = true -> line_has_word (q ++ more) w = starts w (35 :: v).
Proof. intros (_ & _ & E & K) I. unfold line_has_word. rewrite E. change (35 :: v ++ more) with ((35 :: v) ++ more). apply word_prefix; auto. Qed.
Lemma directive_41 q v more : directive q v -> hd0 (skip_ws (q ++ more)) <> 41.
Proof. intros (_ & _ & E & _). rewrite E. cbn. lia. Qed.

Lemma nonempty q (more : text) : lineish q -> exists c t, q ++ more = c :: t.
Proof. intros (b & cr & -> & _). destruct b, cr; cbn; eauto. Qed.
Lemma loop_step u level level' ln q more f : lineish q ->
  skip_inner (f_n R) words level (q ++ more) more s = Ok (inr level') s ->
  skip_until_loop R (S f) u words level ln (q ++ more) s = skip_until_loop R f u words level' (ln + 1) more s.
Proof.
  intros L E. cbn [skip_until_loop]. rewrite bind_get, no_err. destruct (nonempty q more L) as (c & t & Ect). pose proof (lineish_next q more L) as N. rewrite Ect in *. rewrite N, (bind_ok _ _ _ _ _ E). reflexivity.
Qed.
Lemma loop_stop u ln q more f : lineish q -> skip_inner (f_n R) words 0 (q ++ more) more s = Ok (inl (q ++ more)) s ->
  skip_until_loop R (S f) u words 0 ln (q ++ more) s = Ok (q ++ more) (if u then set_line ln s else s).
Proof.
  intros L E. cbn [skip_until_loop]. rewrite bind_get, no_err. destruct (nonempty q more L) as (c & t & Ect). pose proof (lineish_next q more L) as N. rewrite Ect in *. rewrite N, (bind_ok _ _ _ _ _ E). destruct u; reflexivity.
Qed.
Lemma skip_calm u level ln q more f : lineish q -> lacks q -> calm true q = true -> (length q < f_n R)%nat ->
  skip_until_loop R (S f) u words level ln (q ++ more) s = skip_until_loop R f u words level (ln + 1) more s.
Proof. intros L La Cm Lf. apply loop_step; [exact L|]. now apply (inner_calm more (length q)). Qed.
Lemma skip_if u level ln q v more f : lacks q -> directive q v -> starts (zs "#if") (35 :: v) = true -> (S (length q) < f_n R)%nat ->
  skip_until_loop R (S f) u words level ln (q ++ more) s = skip_until_loop R f u words (level + 1) (ln + 1) more s.
Proof.
  intros La Dq S Lf. pose proof Dq as (L & Cm & _). apply loop_step; [exact L|]. destruct (f_n R) as [|g]; [lia|]. cbn [skip_inner].
  change (line_has_word (q ++ more) (zs "#IF")) with (line_has_word (q ++ more) (zs "#if")). rewrite (directive_word q v more _ Dq), S by reflexivity.
  apply inner_next; [lia|exact L|exact La|exact Cm|now apply directive_41 with v].
Qed.
Lemma skip_endif u level ln q v more f : lacks q -> directive q v -> starts (zs "#if") (35 :: v) = false -> starts (zs "#endif") (35 :: v) = true -> 0 < level ->
  (S (length q) < f_n R)%nat ->
  skip_until_loop R (S f) u words level ln (q ++ more) s = skip_until_loop R f u words (level - 1) (ln + 1) more s.
Proof.
  intros La Dq S1 S2 Lv Lf. pose proof Dq as (L & Cm & _). apply loop_step; [exact L|]. destruct (f_n R) as [|g]; [lia|]. cbn [skip_inner].
  change (line_has_word (q ++ more) (zs "#IF")) with (line_has_word (q ++ more) (zs "#if")). rewrite (directive_word q v more _ Dq), S1 by reflexivity.
  change (line_has_word (q ++ more) (zs "#ENDIF")) with (line_has_word (q ++ more) (zs "#endif")). rewrite (directive_word q v more _ Dq), S2 by reflexivity.
  replace (0 <? level) with true by lia. cbn [andb]. apply inner_next; [lia|exact L|exact La|exact Cm|now apply directive_41 with v].
Qed.
(** A line that does not matter at this level. *)
Lemma skip_mid u level ln q v more f : lacks q -> directive q v -> starts (zs "#if") (35 :: v) = false -> starts (zs "#endif") (35 :: v) = false ->
  (0 < level \/ level = 0 /\ existsb (fun w => starts w (35 :: v)) words = false) ->
  (S (length q) < f_n R)%nat ->
  skip_until_loop R (S f) u words level ln (q ++ more) s = skip_until_loop R f u words level (ln + 1) more s.
Proof.
  intros La Dq S1 S2 Lv Lf. pose proof Dq as (L & Cm & _). apply loop_step; [exact L|]. destruct (f_n R) as [|g]; [lia|]. cbn [skip_inner].
  change (line_has_word (q ++ more) (zs "#IF")) with (line_has_word (q ++ more) (zs "#if")). rewrite (directive_word q v more _ Dq), S1 by reflexivity.
  change (line_has_word (q ++ more) (zs "#ENDIF")) with (line_has_word (q ++ more) (zs "#endif")). rewrite (directive_word q v more _ Dq), S2 by reflexivity.
  rewrite andb_false_r.
  assert (E : (level =? 0) && existsb (fun w => line_has_word (q ++ more) w) words = false).
  { destruct Lv as [Lv|(-> & Ex)]; [replace (level =? 0) with false by lia; reflexivity|]. cbn [Z.eqb andb]. rewrite <- Ex. clear Ex. generalize words_line. generalize words as ws. induction ws as [|w ws IH]; [reflexivity|]. intros H. cbn [existsb].
    rewrite IH by (intros x I; apply H; now right). f_equal. apply directive_word; [exact Dq|]. apply H. now left. }
  rewrite E. apply inner_next; [lia|exact L|exact La|exact Cm|now apply directive_41 with v].
Qed.
Lemma skip_stop u ln q v more f : directive q v -> starts (zs "#if") (35 :: v) = false -> existsb (fun w => starts w (35 :: v)) words = true ->
  (0 < f_n R)%nat ->
  skip_until_loop R (S f) u words 0 ln (q ++ more) s = Ok (q ++ more) (if u then set_line ln s else s).
Proof.
  intros Dq S1 Ex Lf. pose proof Dq as (L & Cm & _). apply loop_stop; [exact L|]. destruct (f_n R) as [|g]; [lia|]. cbn [skip_inner].
  change (line_has_word (q ++ more) (zs "#IF")) with (line_has_word (q ++ more) (zs "#if")). rewrite (directive_word q v more _ Dq), S1 by reflexivity.
  cbn [Z.ltb Z.compare andb Z.eqb].
  assert (E : existsb (fun w => line_has_word (q ++ more) w) words = true).
  { apply existsb_exists in Ex as (w & I & Q). apply existsb_exists. exists w. split; [exact I|]. rewrite (directive_word q v more _ Dq); [exact Q|]. now apply words_line. }
  rewrite E. reflexivity.
Qed.
End Skip.

(** ** Directive lines *)
Lemma no_break_app a b : no_break a -> no_break b -> no_break (a ++ b).
Proof. intros A B. apply Forall_app. auto. Qed.
Lemma blanks_no_break b : Forall blank b -> no_break b.
Proof. intros F. eapply Forall_impl; [|exact F]. intros c B. unfold blank in B. lia. Qed.
Lemma ending_body e : ending_ok e -> exists body, ending_text e = body ++ eol_text (e_cr e) /\ no_break body.
Proof.
  intros (B & Cm). unfold ending_text. exists (e_blanks e ++ match e_comment e with Some t => 59 :: t | None => [] end). split; [now rewrite <- app_assoc|].
  apply no_break_app; [now apply blanks_no_break|]. destruct (e_comment e); [|constructor]. constructor; [lia|exact Cm].
Qed.
Lemma lineish_app a b : no_break a -> lineish b -> lineish (a ++ b).
Proof. intros A (body & cr & -> & F). exists (a ++ body), cr. split; [apply app_assoc|now apply no_break_app]. Qed.
Lemma ending_line e : ending_ok e -> lineish (ending_text e).
Proof. intros H. destruct (ending_body e H) as (b & E & F). now exists b, (e_cr e). Qed.
Lemma calm_skip x rest : Forall (fun c => c <> 92) x -> calm false (x ++ rest) = calm false rest.
Proof. induction 1 as [|c x H F IH]; [reflexivity|]. cbn [app calm andb]. replace (c =? 92) with false by lia. exact IH. Qed.
Lemma calm_suffix f a b : calm f (a ++ b) = true -> calm false b = true.
Proof.
  revert f. induction a as [|c a IH]; intros f; [|cbn [app calm]; intros H; apply andb_true_iff in H as (_ & H); eapply IH; exact H].
  destruct f; [apply calm_weak|auto].
Qed.
Lemma ending_calm e : ending_ok e -> calm false (ending_text e) = true -> calm true (ending_text e) = true.
Proof.
  intros (B & _). unfold ending_text. induction B as [|c b B F IH].
  - cbn [app]. destruct (e_comment e), (e_cr e); cbn [app eol_text calm orb andb isblank Z.eqb Pos.eqb]; intros H; repeat rewrite ?andb_true_iff; auto.
  - cbn [app calm]. assert (Bc : isblank c = true) by now apply isblank_iff. rewrite Bc. unfold blank in B. replace (c =? 92) with false by lia. replace (c =? 41) with false by lia. cbn [orb andb].
    intros H. rewrite (IH H), andb_true_r.
    assert (N : forall w t, starts (35 :: w) (c :: t) = false). { intros w t. cbn. destruct B as [->|[->|[->| ->]]]; reflexivity. }
    unfold cond_words. cbn [existsb]. change (zs "#if") with (35 :: zs "if"). change (zs "#else") with (35 :: zs "else"). change (zs "#elif") with (35 :: zs "elif"). change (zs "#endif") with (35 :: zs "endif").
    rewrite !N. reflexivity.
Qed.
Lemma word_chars word l : word_is word l = true -> Forall (fun k => forallb isalpha k = true) l -> Forall (fun c => isalpha c = true) word.
Proof.
  unfold word_is. intros E F. apply existsb_exists in E as (k & I & E). rewrite Forall_forall in F. specialize (F k I). clear I. revert k E F.
  induction word as [|c word IH]; intros [|d k] E F; try discriminate; [constructor|]. cbn in E, F. apply andb_true_iff in E as (E1 & E2). apply andb_true_iff in F as (F1 & F2).
  constructor; [|now apply (IH k)]. unfold isalpha, isupper, islower, tolower, isupper in *. destruct ((65 <=? c) && (c <=? 90)) eqn:?; destruct ((65 <=? d) && (d <=? 90)) eqn:?; lia.
Qed.
Lemma starts_ci w word k rest : eqbl_ci word k = true -> starts w (35 :: word ++ rest) = starts w (35 :: k ++ rest).
Proof.
  intros E. assert (G : forall w, starts w (word ++ rest) = starts w (k ++ rest)).
  { revert k E. induction word as [|c word IH]; intros [|d k] E w'; try discriminate; [reflexivity|]. cbn in E. apply andb_true_iff in E as (E1 & E2).
    destruct w' as [|x w']; [reflexivity|]. cbn [app starts eqbl_ci]. rewrite (IH k E2). apply Z.eqb_eq in E1. now rewrite E1. }
  destruct w as [|x w]; [reflexivity|]. cbn [starts]. now rewrite G.
Qed.
Lemma directive_line indent word rest l : Forall blank indent -> word_is word l = true -> Forall (fun k => forallb isalpha k = true) l ->
  lineish rest -> calm false rest = true -> directive (indent ++ 35 :: word ++ rest) (word ++ rest).
Proof.
  intros B W F L Cm. pose proof (word_chars word l W F) as Wc.
  assert (Nw : no_break (35 :: word)). { constructor; [lia|]. eapply Forall_impl; [|exact Wc]. intros c. cbn. unfold isalpha, isupper, islower. lia. }
  split; [apply lineish_app; [now apply blanks_no_break|]; change (35 :: word ++ rest) with ((35 :: word) ++ rest); now apply lineish_app|].
  split; [|split].
  - rewrite calm_skip by (eapply Forall_impl; [|exact B]; unfold blank; intros; lia). change (35 :: word ++ rest) with ((35 :: word) ++ rest).
    rewrite calm_skip; [exact Cm|]. constructor; [lia|]. eapply Forall_impl; [|exact Wc]. intros c. cbn. unfold isalpha, isupper, islower. lia.
  - intros more. rewrite <- app_assoc, skip_ws_app by exact B. cbn [app]. apply skip_ws_nonblank. unfold blank. lia.
  - destruct (lineish_closed _ L) as (u & ->). exists (35 :: word ++ u). cbn [app]. now rewrite <- app_assoc.
Qed.

Section Texts.
Context {Pm : Params}.
Variable fold : text -> text.
Variable taken : text -> bool.
Notation head_ok := (head_ok fold taken).
Definition head_rest (h : head) : text := h_word h ++ h_gap h ++ test_text (h_test h) ++ ending_text (h_end h).
Definition mark_rest (m : mark) : text := m_word m ++ ending_text (m_end m).
Lemma head_words_alpha first x : Forall (fun k => forallb isalpha k = true) (head_words first x).
Proof. destruct x, first; repeat constructor. Qed.
Lemma head_directive first h : head_ok first h -> directive (head_text h) (head_rest h).
Proof.
  intros (B & W & (_ & G) & _ & Nb & E & _ & Cm). apply (directive_line _ _ _ (head_words first (h_test h))); auto; [apply head_words_alpha| |now apply calm_weak].
  apply lineish_app; [now apply blanks_no_break|]. apply lineish_app; [exact Nb|now apply ending_line].
Qed.
Lemma head_first h : head_ok true h -> starts (zs "#if") (35 :: head_rest h) = true.
Proof.
  intros (_ & W & _). unfold head_rest, word_is in *. destruct (h_test h); cbn [head_words existsb] in W; rewrite orb_false_r in W; rewrite (starts_ci _ _ _ _ W); reflexivity.
Qed.
Lemma head_elif h : head_ok false h -> starts (zs "#if") (35 :: head_rest h) = false /\ starts (zs "#endif") (35 :: head_rest h) = false /\
  starts (zs "#elif") (35 :: head_rest h) = true /\ starts (zs "#else") (35 :: head_rest h) = false.
Proof.
  intros (_ & W & _). unfold head_rest, word_is in *. destruct (h_test h); cbn [head_words existsb] in W; try discriminate. rewrite orb_false_r in W. rewrite !(starts_ci _ _ _ _ W). repeat split; reflexivity.
Qed.
Lemma mark_directive l m : Forall (fun k => forallb isalpha k = true) l -> mark_ok l m -> directive (mark_text m) (mark_rest m).
Proof.
  intros F (B & W & E & _ & Cm). apply (directive_line _ _ _ l); auto. now apply ending_line.
Qed.
Lemma mark_endif m : mark_ok [zs "endif"] m -> directive (mark_text m) (mark_rest m) /\ starts (zs "#if") (35 :: mark_rest m) = false /\
  starts (zs "#endif") (35 :: mark_rest m) = true /\ starts (zs "#else") (35 :: mark_rest m) = false /\ starts (zs "#elif") (35 :: mark_rest m) = false.
Proof.
  intros M. split; [apply (mark_directive [zs "endif"]); [repeat constructor|exact M]|]. destruct M as (_ & W & _). unfold mark_rest, word_is in *. cbn [existsb] in W. rewrite orb_false_r in W. rewrite !(starts_ci _ _ _ _ W). repeat split; reflexivity.
Qed.
Lemma mark_else m : mark_ok [zs "else"] m -> directive (mark_text m) (mark_rest m) /\ starts (zs "#if") (35 :: mark_rest m) = false /\
  starts (zs "#endif") (35 :: mark_rest m) = false /\ starts (zs "#else") (35 :: mark_rest m) = true /\ starts (zs "#elif") (35 :: mark_rest m) = false.
Proof.
  intros M. split; [apply (mark_directive [zs "else"]); [repeat constructor|exact M]|]. destruct M as (_ & W & _). unfold mark_rest, word_is in *. cbn [existsb] in W. rewrite orb_false_r in W. rewrite !(starts_ci _ _ _ _ W). repeat split; reflexivity.
Qed.
End Texts.

(** ** Skipping blocks *)
Section SkipBlocks.
Context {Pm : Params}.
Variable fold : text -> text.
Variable taken : text -> bool.
Notation head_ok := (head_ok fold taken).
Notation blocks_ok := (blocks_ok fold taken).
Notation alt_ok := (alt_ok fold taken).
Variable R : fns.
Variable words : list text.
(** Texts without the words that are not looked for in conditionals. *)
Variable lacks : text -> Prop.
Hypothesis lacks_app : forall a b, lacks (a ++ b) -> lacks a /\ lacks b.
Hypothesis Hw : forall w, In w words -> In w stop_words \/ (one_line w = true /\ forall v, lacks v -> starts w v = false).
Variable s : st.
Hypothesis no_err : s_erroc s = false.
Notation loop := (skip_until_loop R).

(** Everything up to [more] is passed over, and the level changes by [d]. *)
Definition passes (t : text) (d : Z) (least : Z) : Prop :=
  forall u level ln more f, least <= level -> (S (length t) < f_n R)%nat -> (length (t ++ more) < f)%nat ->
  exists f' ln', (length more < f')%nat /\ loop f u words level ln (t ++ more) s = loop f' u words (level + d) ln' more s.
Lemma passes_nil least : passes [] 0 least.
Proof. intros u level ln more f _ _ L. exists f, ln. rewrite Z.add_0_r. auto. Qed.
Lemma passes_app a b d e least : passes a d least -> passes b e (least + d) -> passes (a ++ b) (d + e) least.
Proof.
  intros A B u level ln more f Lv Lf L. rewrite app_length in Lf. rewrite <- app_assoc in *. destruct (A u level ln (b ++ more) f) as (f1 & ln1 & L1 & ->); auto; [lia|].
  destruct (B u (level + d) ln1 more f1) as (f2 & ln2 & L2 & ->); auto; [lia|lia|]. exists f2, ln2. split; [exact L2|]. f_equal. lia.
Qed.
Lemma passes_one t d least : lineish t ->
  (forall u level ln more f, least <= level -> (S (length t) < f_n R)%nat -> loop (S f) u words level ln (t ++ more) s = loop f u words (level + d) (ln + 1) more s) -> passes t d least.
Proof.
  intros Li H u level ln more f Lv Lf L. destruct f as [|f]; [lia|]. exists f, (ln + 1). split; [|now apply H]. rewrite app_length in L. destruct Li as (b & cr & -> & _). rewrite app_length in L. destruct cr; cbn [eol_text length] in L; lia.
Qed.
Lemma passes_weak t d l1 l2 : passes t d l1 -> l1 <= l2 -> passes t d l2.
Proof. intros P L u level ln more f Lv. apply P. lia. Qed.
Lemma passes_calm t : lacks t -> lineish t -> calm true t = true -> passes t 0 0.
Proof. intros La L Cm. apply passes_one; [exact L|]. intros. rewrite Z.add_0_r. apply (skip_calm R words lacks); auto. lia. Qed.
Lemma passes_head h : lacks (head_text h) -> head_ok true h -> passes (head_text h) 1 0.
Proof.
  intros La H. pose proof (head_directive _ _ _ _ H) as Dh. apply passes_one; [apply Dh|]. intros. eapply skip_if; eauto. eapply head_first. exact H.
Qed.
Lemma passes_elif h : lacks (head_text h) -> head_ok false h -> passes (head_text h) 0 1.
Proof.
  intros La H. pose proof (head_directive _ _ _ _ H) as Dh. destruct (head_elif _ _ _ H) as (S1 & S2 & _). apply passes_one; [apply Dh|]. intros. rewrite Z.add_0_r. eapply skip_mid; eauto. left. lia.
Qed.
Lemma passes_endif m : lacks (mark_text m) -> mark_ok [zs "endif"] m -> passes (mark_text m) (-1) 1.
Proof. intros La H. destruct (mark_endif _ H) as (Dm & S1 & S2 & _). apply passes_one; [apply Dm|]. intros. eapply skip_endif; eauto. lia. Qed.
Lemma passes_else m : lacks (mark_text m) -> mark_ok [zs "else"] m -> passes (mark_text m) 0 1.
Proof. intros La H. destruct (mark_else _ H) as (Dm & S1 & S2 & _). apply passes_one; [apply Dm|]. intros. rewrite Z.add_0_r. eapply skip_mid; eauto. left. lia. Qed.
Lemma line_lineish l : line_ok l -> no_break (section_text (l_first l) ++ flat_map (fun x => 92 :: section_text x) (l_more l)) -> lineish (line_text l).
Proof.
  intros O N. unfold line_text. rewrite app_assoc. apply lineish_app; [exact N|]. unfold line_ok in O. exists (match l_comment l with Some t => 59 :: t | None => [] end), (l_cr l).
  split; [reflexivity|]. destruct (l_comment l); [|constructor]. constructor; [lia|exact O].
Qed.
Lemma passes_text : (forall b, lacks (blocks_text b) -> blocks_ok true b -> passes (blocks_text b) 0 0) /\ (forall a, lacks (alt_text a) -> alt_ok a -> passes (alt_text a) (-1) 1).
Proof.
  apply blocks_alt_ind.
  - intros _ _. apply passes_nil.
  - intros l more IH La (Lo & In & Om). cbn [blocks_text] in La. apply lacks_app in La as (La & La2). destruct (In eq_refl) as (Nb & Cm). cbn [blocks_text]. apply (passes_app _ _ 0 0); [|now apply IH]. apply passes_calm; [exact La|now apply line_lineish|exact Cm].
  - intros t cr more IH La (Nb & Cm & Om). cbn [blocks_text] in *. rewrite app_assoc in *. apply lacks_app in La as (La & La2). apply (passes_app _ _ 0 0); [|now apply IH].
    assert (L : lineish (t ++ eol_text cr)) by now exists t, cr. apply passes_calm; [exact La|exact L|].
    assert (G : forall f t, calm f t = true -> calm f (t ++ eol_text cr) = true).
    { clear. assert (St : forall w t, forallb (fun c => negb (tolower c =? 10) && negb (tolower c =? 13)) w = true -> starts w t = false -> starts w (t ++ eol_text cr) = false).
      { induction w as [|c w IH]; intros t F S; [discriminate S|]. cbn [forallb] in F. apply andb_true_iff in F as (F1 & F2). destruct t as [|d t].
        - destruct cr; cbn [app eol_text starts eqbl_ci]; change (tolower 13) with 13; change (tolower 10) with 10; [replace (tolower c =? 13) with false by lia|replace (tolower c =? 10) with false by lia]; reflexivity.
        - cbn [app starts] in *. destruct (eqbl_ci [c] [d]); [now apply IH|reflexivity]. }
      intros f t. revert f. induction t as [|c t IH]; intros f.
      - intros _. destruct f, cr; reflexivity.
      - cbn [app calm]. intros H. apply andb_true_iff in H as (H1 & H2). rewrite (IH _ H2), andb_true_r. destruct f; [|reflexivity]. apply negb_true_iff in H1. apply negb_true_iff.
        apply orb_false_iff in H1 as (H1 & H3). rewrite H1. cbn [orb]. unfold cond_words in *. cbn [existsb] in *. apply orb_false_iff in H3 as (X1 & H3). apply orb_false_iff in H3 as (X2 & H3). apply orb_false_iff in H3 as (X3 & H3). apply orb_false_iff in H3 as (X4 & _).
        change (c :: t ++ eol_text cr) with ((c :: t) ++ eol_text cr). rewrite !St; auto. }
    now apply G.
  - intros h yes IHy no IHn more IHm La (H & Oy & On & Om). cbn [blocks_text] in *. apply lacks_app in La as (La & La1). apply lacks_app in La1 as (La1 & La2). apply lacks_app in La2 as (La2 & La3).
    apply (passes_app _ _ 1 (-1)); [now apply passes_head|]. apply (passes_app _ _ 0 (-1)); [eapply passes_weak; [now apply IHy|lia]|]. apply (passes_app _ _ (-1) 0); [apply passes_weak with 1; [now apply IHn|lia]|].
    apply passes_weak with 0; [now apply IHm|lia].
  - intros m La H. cbn [alt_text] in *. now apply passes_endif.
  - intros m no IHn e La (H & On & He). cbn [alt_text] in *. apply lacks_app in La as (La & La1). apply lacks_app in La1 as (La1 & La2). apply (passes_app _ _ 0 (-1)); [now apply passes_else|]. apply (passes_app _ _ 0 (-1)); [apply passes_weak with 0; [now apply IHn|lia]|]. apply passes_weak with 1; [now apply passes_endif|lia].
  - intros h yes IHy no IHn La (H & Oy & On). cbn [alt_text] in *. apply lacks_app in La as (La & La1). apply lacks_app in La1 as (La1 & La2). apply (passes_app _ _ 0 (-1)); [now apply passes_elif|]. apply (passes_app _ _ 0 (-1)); [apply passes_weak with 0; [now apply IHy|lia]|]. apply passes_weak with 1; [now apply IHn|lia].
Qed.
Definition state_after (u : bool) (ln : Z) : st := if u then set_line ln s else s.
(** At the end of the branch. *)
Lemma stops_first a u ln more f : words = stop_words -> lacks (alt_text a) -> alt_ok a -> (S (length (alt_text a)) < f_n R)%nat -> (0 < f)%nat ->
  loop f u words 0 ln (alt_text a ++ more) s = Ok (alt_text a ++ more) (state_after u ln).
Proof.
  intros E La O Lf Lg. destruct f as [|f]; [lia|]. destruct a as [m|m no e|h yes no]; cbn [alt_text] in *; [|apply lacks_app in La as (La & _)..]; rewrite ?app_length in Lf; rewrite <- ?app_assoc.
  - destruct (mark_endif _ O) as (Dm & S1 & S2 & _). eapply skip_stop; eauto; [|lia]. rewrite E. cbn [existsb stop_words]. unfold stop_words. cbn [existsb]. now rewrite S2, !orb_true_r.
  - destruct O as (O & _). destruct (mark_else _ O) as (Dm & S1 & S2 & S3 & _). eapply skip_stop; eauto; [|lia]. rewrite E. unfold stop_words. cbn [existsb]. now rewrite S3.
  - destruct O as (O & _). pose proof (head_directive _ _ _ _ O) as Dh. destruct (head_elif _ _ _ O) as (S1 & S2 & S3 & _). eapply skip_stop; eauto; [|lia]. rewrite E. unfold stop_words. cbn [existsb]. now rewrite S3, orb_true_r.
Qed.
Lemma stops_last a : words = [zs "#endif"] -> lacks (alt_text a) -> alt_ok a -> forall u ln more f, (S (length (alt_text a)) < f_n R)%nat -> (length (alt_text a ++ more) < f)%nat ->
  exists m ln', (mark_ok [zs "endif"] m /\ (length (mark_text m) <= length (alt_text a))%nat) /\ loop f u words 0 ln (alt_text a ++ more) s = Ok (mark_text m ++ more) (state_after u ln').
Proof.
  intros E. assert (Stop : forall m u ln more f, lacks (mark_text m) -> mark_ok [zs "endif"] m -> (0 < f_n R)%nat -> (0 < f)%nat -> loop f u words 0 ln (mark_text m ++ more) s = Ok (mark_text m ++ more) (state_after u ln)).
  { intros m u ln more [|f] La O Lf Lg; [lia|]. destruct (mark_endif _ O) as (Dm & S1 & S2 & _). eapply skip_stop; eauto. rewrite E. cbn [existsb]. now rewrite S2. }
  induction a as [m|m no e|h yes no IH]; intros La O u ln more f Lf Lg; cbn [alt_text] in *; [|apply lacks_app in La as (La & La1); apply lacks_app in La1 as (La1 & La2)..]; rewrite ?app_length in Lf; rewrite <- ?app_assoc in *.
  - exists m, ln. split; [split; [exact O|reflexivity]|]. apply Stop; [exact La|exact O|lia|lia].
  - destruct O as (O & On & Oe). destruct (mark_else _ O) as (Dm & S1 & S2 & S3 & _). exists e. destruct f as [|f]; [lia|].
    assert (E1 : loop (S f) u words 0 ln (mark_text m ++ blocks_text no ++ mark_text e ++ more) s = loop f u words 0 (ln + 1) (blocks_text no ++ mark_text e ++ more) s).
    { eapply skip_mid; eauto; [|lia]. right. split; [reflexivity|]. rewrite E. cbn [existsb]. now rewrite S2. }
    rewrite E1. assert (N : (0 < length (mark_text m))%nat) by (unfold mark_text; rewrite app_length; cbn; lia).
    rewrite app_length in Lg. destruct (proj1 passes_text no La1 On u 0 (ln + 1) (mark_text e ++ more) f) as (f2 & ln2 & L2 & ->); [lia|lia|lia|].
    exists ln2. split; [split; [exact Oe|rewrite !app_length; lia]|]. apply Stop; [exact La2|exact Oe|lia|lia].
  - destruct O as (O & Oy & On). pose proof (head_directive _ _ _ _ O) as Dh. destruct (head_elif _ _ _ O) as (S1 & S2 & S3 & _). destruct f as [|f]; [lia|].
    assert (E1 : loop (S f) u words 0 ln (head_text h ++ blocks_text yes ++ alt_text no ++ more) s = loop f u words 0 (ln + 1) (blocks_text yes ++ alt_text no ++ more) s).
    { eapply skip_mid; eauto; [|lia]. right. split; [reflexivity|]. rewrite E. cbn [existsb]. now rewrite S2. }
    rewrite E1. assert (N : (0 < length (head_text h))%nat) by (unfold head_text; rewrite app_length; cbn; lia).
    rewrite app_length in Lg. destruct (proj1 passes_text yes La1 Oy u 0 (ln + 1) (alt_text no ++ more) f) as (f2 & ln2 & L2 & ->); [lia|lia|lia|].
    destruct (IH La2 On u ln2 more f2) as (m & ln' & (Om & Lo) & Em); [lia|lia|]. exists m, ln'. split; [split; [exact Om|rewrite !app_length; lia]|exact Em].
Qed.
End SkipBlocks.
