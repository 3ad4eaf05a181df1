(** What stands in front of a program is read, and the definitions that count are kept. *)
From Verif Require Import Base BaseProofs State MonadProofs UtilsModel ErrorsModel StorageModel ParserModel PassTwoModel
  PreopModel PassOneModel DirectiveModel Knot OpcodeTables UtilsSpec UtilsProofs UtilsProps StorageSpec StorageProofs PassTwoSpec PassTwoProofs
  ParserSpec ParserProofs ParserProps StringProps DefineProofs SubstProps InstrSpec InstrProps MatchSpec MatchProps AsmSpec AsmExpand AsmProofs AsmData AsmInstr AsmLine
  CondSpec CondSkip CondRun CondExt MacroSpec BitmapModel AsmRun MainModel MacroRun MacroDefs FrontSpec.
From Verif Require IncludeProps.

Lemma front_length l : (length (front_text l) <= front_size l)%nat.
Proof. induction l; cbn [front_text front_size length]; repeat rewrite app_length; lia. Qed.

Lemma counted_same fold l : forall d d', (forall n, d n = d' n) -> counted fold d l = counted fold d' l.
Proof.
  assert (J : forall d d' x f f', (forall n, d n = d' n) -> (forall e e', (forall n, e n = e' n) -> f e = f' e') -> joined fold d x f = joined fold d' x f').
  { intros d d' x f f' E F. unfold joined. destruct x as [a|]; [|reflexivity]. rewrite (F (fun n => d n || header_name fold a n) (fun n => d' n || header_name fold a n)); [reflexivity|]. intros n. now rewrite E. }
  assert (A : forall d d' x, (forall n, d n = d' n) -> asks d x = asks d' x) by (intros d d' [w|n|n] E; cbn [asks]; rewrite ?E; reflexivity).
  induction l as [|i l IH|b c cr l IH|y l1 IH1 l IH|h l1 IH1 a l IH|h o m l1 IH1 e l IH|h o e l IH]; intros d d' E; cbn [counted].
  - reflexivity.
  - apply J; auto.
  - auto.
  - rewrite (IH1 d d' E). apply J; auto.
  - rewrite (A d d' _ E), (IH1 d d' E). apply J; auto.
  - rewrite (A d d' _ E), (IH1 d d' E). apply J; auto.
  - rewrite (A d d' _ E). now rewrite (IH d d' E).
Qed.
Lemma joined_some fold d x f hs : joined fold d x f = Some hs -> exists a b, x = Some a /\ f (fun n => d n || header_name fold a n) = Some b /\ hs = a ++ b.
Proof. unfold joined. destruct x as [a|]; [|discriminate]. destruct (f _) as [b|] eqn:E; [|discriminate]. intros [= <-]. eauto. Qed.
Lemma only_some b x r hs : only b x r = Some hs -> x = Some b /\ r = Some hs.
Proof. unfold only. destruct x as [c|]; [|discriminate]. destruct c, b; cbn; intros H; try discriminate; auto. Qed.

Section FrontRun.
Variable C : cfg.
Context {dr : Dirs}.
Variable ops : list opcode.
Notation good D s := (@AsmLine.good any_level dr no_params [] no_consts C D ops 1 [] 0 [] [] s).
Notation at_none l := (l (fresh_dirs []) no_params [] no_consts no_calls C [] [] (fun w _ => eq_refl) (fun k d (E : None = Some d) => match E with end) 20%nat (le_n 20) 0%nat (fun z _ => @no_calls_run (Z.le z) (fresh_dirs []) no_params [] no_consts C [] [] 20)).
Lemma none_taken : forall n, false = taken C [] n.
Proof. reflexivity. Qed.
Lemma left_is b : left_ok (key C) b -> blocks_ok (P := no_params) (key C) (taken C []) true b.
Proof. intros H. now apply (proj1 (blocks_ok_same (Pm := no_params) (key C) (fun _ => false) (taken C []) none_taken)). Qed.
Lemma end_is a : end_ok (key C) a -> alt_ok (P := no_params) (key C) (taken C []) a.
Proof. intros H. now apply (proj2 (blocks_ok_same (Pm := no_params) (key C) (fun _ => false) (taken C []) none_taken)). Qed.
Lemma head_is h : hd_ok (key C) h -> (exists n, h_test h = Defined n \/ h_test h = Undefined n) -> head_ok (P := no_params) (key C) (taken C []) true h.
Proof. unfold hd_ok, head_ok. intros H (n & [E|E]); rewrite E in *; exact H. Qed.

Lemma file_end R u e b a more s : lineish e -> calm true e = true -> left_ok (key C) b -> end_ok (key C) a -> s_erroc s = false ->
  (S (length (e ++ blocks_text b ++ alt_text a ++ more)) < f_n R)%nat ->
  exists m ln', (mark_ok [zs "endif"] m /\ (length (mark_text m) <= length (alt_text a))%nat) /\ skip_until R u [zs "#endif"] (e ++ blocks_text b ++ alt_text a ++ more) s = Ok (mark_text m ++ more) (state_after s u ln').
Proof. intros L Cm Ob Oa Ne Lf. apply (at_none (@until_end)); auto. Qed.
Lemma file_alt R u e b a more s : lineish e -> calm true e = true -> left_ok (key C) b -> end_ok (key C) a -> s_erroc s = false ->
  (S (length (e ++ blocks_text b ++ alt_text a ++ more)) < f_n R)%nat ->
  exists ln', skip_until R u else_words (e ++ blocks_text b ++ alt_text a ++ more) s = Ok (alt_text a ++ more) (state_after s u ln').
Proof. intros L Cm Ob Oa Ne Lf. apply (at_none (@until_alt)); auto. Qed.
Lemma dir_pass m indent v more s f q s1 : (20 <= m)%nat -> Forall blank indent -> s_erroc s = false ->
  handle_preop C (knot C m) (v ++ more) s = Ok (Some q) s1 -> s_erroc s1 = false -> hd0 (skip_ws q) <> 92 ->
  pass_loop (knot C (S (S m))) (S f) ((indent ++ 35 :: v) ++ more) s = pass_loop (knot C (S (S m))) f (skip_to_next_line q) (set_line (s_line s1 + 1) s1).
Proof. intros Hm. apply (at_none (@pass_dir) m 1 Hm ltac:(lia) _ (pass_takes C m)). Qed.

(** ** A conditional that asks for a name *)
Lemma asked m w n e b a more D s : good D s -> (forall k d, tfind k D = Some d -> d_contents d <> None) ->
  name_ok n -> eqbl (key C n) (zs "__LINE") = false -> eqbl (key C n) (zs "__FILE") = false -> ending_ok e -> calm false (ending_text e) = true ->
  left_ok (key C) b -> end_ok (key C) a -> (length (ending_text e ++ blocks_text b ++ alt_text a ++ more) + 2 <= m)%nat ->
  exists ln, preop_ifdef C (knot C m) w (n ++ ending_text e ++ blocks_text b ++ alt_text a ++ more) s =
    if Bool.eqb (taken C D n) w then Ok (ending_text e ++ blocks_text b ++ alt_text a ++ more) (set_iflevel (s_iflevel s + 1) s)
    else (if line_has_word (alt_text a ++ more) (zs "#else") then ret (back1 (alt_text a ++ more) (next_code_line (alt_text a ++ more)))
          else if line_has_word (alt_text a ++ more) (zs "#elif") then f_if (knot C m) (skipn 5 (skip_ws (alt_text a ++ more))) else ret (alt_text a ++ more))
         (set_line ln (set_iflevel (s_iflevel s + 1) s)).
Proof.
  intros G Df On N1 N2 Oe Ce Ob Oa Lm. destruct (ending_core_ok C [] ltac:(reflexivity) ltac:(discriminate) 20 (le_n 20) e Oe Ce) as (_ & _ & _ & Nn).
  set (x := blocks_text b ++ alt_text a ++ more) in *. destruct On as (_ & (c & t & En & Ns) & Nc).
  assert (E1 : is_eol (n ++ ending_text e ++ x) = false).
  { rewrite En. cbn [app]. apply is_eol_not. unfold name_start, line_ender in *. lia. }
  unfold preop_ifdef. rewrite E1, bind_get, bind_upd. rewrite (skip_name_app n _ Nc (Nn x)), seg_app.
  set (s1 := set_iflevel (s_iflevel s + 1) s). pose proof G as (K & _).
  assert (Eh : (r <- search_defines C n true ;;
          have <- match r with
            | None => ret false
            | Some r => d <- get_define r ;; ret (match d_contents d with Some _ => true | None => false end)
            end ;; do_if (knot C m) (ending_text e ++ x) (Bool.eqb have w)) s1 = do_if (knot C m) (ending_text e ++ x) (Bool.eqb (taken C D n) w) s1).
  { assert (Es : search_defines C n true s1 = Ok (match tfind (key C n) D with Some _ => Some (RG (key C n)) | None => None end) s1).
    { unfold search_defines. rewrite !bind_get. change (s_args s1) with (s_args s). change (s_defines s1) with (s_defines s). rewrite (k_args _ _ _ _ _ _ K), (k_defines _ _ _ _ _ _ K).
      rewrite N1, N2, bind_ret. cbn [find_arg]. destruct (tfind (key C n) D); reflexivity. }
    rewrite (bind_ok _ _ _ _ _ Es). rewrite taken_find.
    destruct (tfind (key C n) D) as [d|] eqn:Ed; [|reflexivity]. cbn [isSome].
    assert (Eg : get_define (RG (key C n)) s1 = Ok d s1). { unfold get_define. cbn [lookup_ref]. change (s_defines s1) with (s_defines s). now rewrite (k_defines _ _ _ _ _ _ K), Ed. }
    rewrite bind_assoc, (bind_ok _ _ _ _ _ Eg), bind_ret. pose proof (Df _ _ Ed) as Dc. destruct (d_contents d); [reflexivity|congruence]. }
  rewrite Eh. assert (Ne : s_erroc s1 = false) by exact (k_erroc _ _ _ _ _ _ K). unfold do_if.
  assert (Fn : f_n (knot C m) = m) by (destruct m; reflexivity).
  destruct (file_end (knot C m) false (ending_text e) b a more s1) as (mk & ln' & _ & Eu); auto; [now apply ending_line|now apply ending_calm|rewrite Fn; fold x; lia|].
  unfold x. rewrite (bind_ok _ _ _ _ _ Eu). cbn [state_after]. destruct (Bool.eqb (taken C D n) w); [exists 0; reflexivity|].
  destruct (file_alt (knot C m) true (ending_text e) b a more s1) as (ln2 & Ea); auto; [now apply ending_line|now apply ending_calm|rewrite Fn; fold x; lia|].
  exists ln2. rewrite (bind_ok _ _ _ _ _ Ea). reflexivity.
Qed.
Lemma asked_line m h b a more D s (c : bool) : (20 <= m)%nat -> good D s -> (forall k d, tfind k D = Some d -> d_contents d <> None) ->
  hd_ok (key C) h -> asks (taken C D) (h_test h) = Some c -> left_ok (key C) b -> end_ok (key C) a -> (length (head_text h ++ blocks_text b ++ alt_text a ++ more) + 2 <= m)%nat ->
  Forall blank (h_indent h) /\ exists ln, handle_preop C (knot C m) (head_rest h ++ blocks_text b ++ alt_text a ++ more) s =
    (if c then ret (Some (ending_text (h_end h) ++ blocks_text b ++ alt_text a ++ more))
     else q <- (if line_has_word (alt_text a ++ more) (zs "#else") then ret (back1 (alt_text a ++ more) (next_code_line (alt_text a ++ more)))
          else if line_has_word (alt_text a ++ more) (zs "#elif") then f_if (knot C m) (skipn 5 (skip_ws (alt_text a ++ more))) else ret (alt_text a ++ more)) ;; ret (Some q))
         (if c then set_iflevel (s_iflevel s + 1) s else set_line ln (set_iflevel (s_iflevel s + 1) s)).
Proof.
  intros Hm G Df Oh As Ob Oa Lm.
  assert (Tn : exists (w : bool) n, h_test h = (if w then Defined n else Undefined n) /\ c = Bool.eqb (taken C D n) w).
  { unfold asks in As. destruct (h_test h) as [x|n|n]; [discriminate|exists true, n|exists false, n]; injection As as <-; split; auto; now destruct (taken C D n). }
  destruct Tn as (w & n & Et & ->).
  assert (Oh' : head_ok (P := no_params) (key C) (taken C []) true h) by (apply head_is; [exact Oh|exists n; destruct w; auto]).
  pose proof Oh as (B & W & (_ & Gb) & To & Nb & Oe & Ce & Cm). split; [exact B|]. set (x := blocks_text b ++ alt_text a ++ more) in *.
  assert (Fw : forall y, In y (head_words true (h_test h)) -> forallb isalpha y = true /\ find_ci y preops = Some (if w then P_IFDEF else P_IFNDEF)).
  { intros y Hy. rewrite Et in Hy. destruct w; cbn [head_words In] in Hy; destruct Hy as [<-|[]]; split; reflexivity. }
  destruct (head_preop (Pm := no_params) C [] true h _ x Oh' Fw) as (E1 & E3).
  assert (To' : name_ok n /\ eqbl (key C n) (zs "__LINE") = false /\ eqbl (key C n) (zs "__FILE") = false) by (rewrite Et in To; destruct w; exact To). destruct To' as (T1 & T2 & T3).
  assert (Tt : test_text (h_test h) = n) by (rewrite Et; destruct w; reflexivity).
  unfold head_text in Lm. rewrite Tt in *. rewrite !app_length in Lm. cbn [length] in Lm. rewrite !app_length in Lm.
  destruct (asked m w n (h_end h) b a more D s) as (ln & E4); auto.
  { apply calm_suffix in Cm. now apply calm_suffix in Cm. }
  { fold x. rewrite app_length. lia. }
  fold x in E4. exists ln. unfold handle_preop. rewrite E3, E1. rewrite skip_ws_app by exact Gb.
  assert (Es : skip_ws (n ++ ending_text (h_end h) ++ x) = n ++ ending_text (h_end h) ++ x).
  { destruct T1 as (_ & (c & t & -> & Ns) & _). cbn [app]. apply skip_ws_nonblank. unfold name_start, blank in *. lia. }
  rewrite Es. unfold bind in E4 |- *. destruct w; rewrite E4; destruct (Bool.eqb _ _); try reflexivity.
Qed.
Ltac good_tac := match goal with H : good _ _ |- good _ _ => destruct H as (GK & GA & GS & GH); split; [destruct GK; constructor; assumption|split; [destruct GA; constructor; first [assumption|reflexivity]|split; assumption]] end.
Lemma line_good D s ln : good D s -> good D (set_line ln s).
Proof. intros G. good_tac. Qed.
Lemma level_good D s lv : good D s -> good D (set_iflevel lv s).
Proof. intros G. good_tac. Qed.
Lemma good_no_error D s : good D s -> s_erroc s = false.
Proof. intros (K & _). exact (k_erroc _ _ _ _ _ _ K). Qed.
Lemma skip_quietly D s R words p r ln : good D s ->
  skip_until R true words p (set_sess 2 s) = Ok r (set_line ln (set_sess 2 s)) ->
  exists s', skip_quiet R words p s = Ok r s' /\ good D s' /\ s_iflevel s' = s_iflevel s.
Proof.
  intros G E. pose proof G as (K & A & So & H). unfold skip_quiet, start_session. rewrite !bind_assoc, bind_get, bind_assoc, bind_upd, bind_ret.
  rewrite (k_sess _ _ _ _ _ _ K). change (1 + 1) with 2. rewrite (bind_ok _ _ _ _ _ E). set (s1 := set_line ln (set_sess 2 s)).
  assert (Ee : end_session 2 s1 = Ok tt (set_sess (2 - 1) (set_errs (s_errs s) s1))).
  { unfold end_session. rewrite !bind_get, !bind_upd. change (s_errs s1) with (s_errs s). change (s_sess s1) with 2. pose proof (unlead_le 1 _ (errs_all _ _ (k_errs _ _ _ _ _ _ K))) as U. change (1 + 1) with 2 in U. rewrite U. reflexivity. }
  rewrite (bind_ok _ _ _ _ _ Ee). unfold s1.
  eexists. split; [reflexivity|]. split; [|reflexivity]. split; [|split; [destruct A; constructor; assumption|split; assumption]].
  destruct K; constructor; try assumption. reflexivity.
Qed.
Lemma f_n_is n : f_n (knot C n) = n.
Proof. destruct n; reflexivity. Qed.
Lemma mark_over l mk x : Forall (fun w => forallb isalpha w = true) l -> mark_ok l mk -> skip_to_next_line (mark_text mk ++ x) = x /\ hd0 (skip_ws (mark_text mk ++ x)) <> 92.
Proof.
  intros F M. destruct (mark_directive l mk F M) as (L & _ & E & _). split; [now apply lineish_next|]. rewrite E. cbn. lia.
Qed.
Lemma core_head e x : hd0 (skip_ws (ending_core e ++ x)) <> 92.
Proof. unfold ending_core. destruct (e_comment e), (e_cr e); cbn [app eol_text]; (rewrite skip_ws_nonblank by (unfold blank; lia)); cbn; lia. Qed.
Lemma alt_out m a more D s f : (20 <= m)%nat -> good D s -> end_ok (key C) a -> 1 <= s_iflevel s -> (length (alt_text a ++ more) + 2 <= m)%nat ->
  exists s', pass_loop (knot C (S (S m))) (S f) (alt_text a ++ more) s = pass_loop (knot C (S (S m))) f more s' /\ good D s' /\ s_iflevel s - 1 <= s_iflevel s'.
Proof.
  intros Hm G Oa Lv Lm. pose proof (good_no_error _ _ G) as Ne. apply end_is in Oa.
  assert (Gs : s_erroc (set_sess 2 s) = false) by exact Ne.
  assert (Mp : forall mk w o x, mark_ok [w] mk -> forallb isalpha w = true -> find_ci w preops = Some o -> skip_nonspace (mark_rest mk ++ x) = ending_text (m_end mk) ++ x /\
     skip_ws (ending_text (m_end mk) ++ x) = ending_core (m_end mk) ++ x /\ find_ci (seg (mark_rest mk ++ x) (skip_nonspace (mark_rest mk ++ x))) preops = Some o).
  { intros. eapply (mark_preop C [] ltac:(reflexivity) ltac:(discriminate) 20 (le_n 20)); eauto. }
  destruct a as [mk|mk no e|h yes no]; cbn [alt_text] in *.
  - destruct (Mp mk (zs "endif") P_ENDIF more Oa eq_refl eq_refl) as (E1 & E2 & E3). pose proof Oa as (B & _ & O & _ & Cm).
    eexists. split; [|split; [apply line_good, level_good; exact G|]].
    + change (mark_text mk) with (m_indent mk ++ 35 :: mark_rest mk). rewrite (dir_pass m _ _ more s f (ending_core (m_end mk) ++ more) (set_iflevel (s_iflevel s - 1) s)); [|exact Hm|exact B|exact Ne| |exact Ne|apply core_head].
      * rewrite core_next by assumption. reflexivity.
      * unfold handle_preop. rewrite E3, E1, E2. rewrite bind_get. replace (0 <? s_iflevel s) with true by lia. rewrite bind_upd. reflexivity.
    + cbn. lia.
  - destruct Oa as (M & Ob & Me). rewrite <- !app_assoc in *. destruct (Mp mk (zs "else") P_ELSE (blocks_text no ++ mark_text e ++ more) M eq_refl eq_refl) as (E1 & E2 & E3).
    pose proof M as (B & _ & O & _ & Cm). destruct (ending_core_ok C [] ltac:(reflexivity) ltac:(discriminate) 20 (le_n 20) _ O Cm) as (Le & Ce & Nh & _). assert (Lc : (length (ending_core (m_end mk)) <= length (ending_text (m_end mk)))%nat) by (unfold ending_core, ending_text; rewrite !app_length; lia).
    destruct (file_alt (knot C m) true (ending_core (m_end mk)) no (End e) more (set_sess 2 s)) as (ln' & Eu); auto.
    { rewrite f_n_is. cbn [alt_text]. unfold mark_text in Lm at 1. rewrite !app_length in *. cbn [length] in *. rewrite !app_length in *. lia. }
    destruct (skip_quietly _ _ _ _ _ _ _ G Eu) as (s' & Eq & G' & Lv'). cbn [alt_text] in Eq.
    destruct (mark_over [zs "endif"] e more) as (N1 & N2); [repeat constructor|exact Me|].
    eexists. split; [|split; [apply line_good; exact G'|]].
    + change (mark_text mk) with (m_indent mk ++ 35 :: mark_rest mk). rewrite (dir_pass m _ _ _ s f (mark_text e ++ more) s'); [|exact Hm|exact B|exact Ne| |exact (good_no_error _ _ G')|exact N2].
      * rewrite N1. reflexivity.
      * unfold handle_preop. rewrite E3, E1, E2. rewrite bind_get. replace (s_iflevel s =? 0) with false by lia. rewrite (bind_ok _ _ _ _ _ Eq). reflexivity.
    + cbn. lia.
  - destruct Oa as (M & Ob & Oa). rewrite <- !app_assoc in *. pose proof M as (B & W & _ & _ & _ & _ & _ & Cm).
    set (X := blocks_text yes ++ alt_text no ++ more) in *.
    assert (Fw : forall w, In w (head_words false (h_test h)) -> forallb isalpha w = true /\ find_ci w preops = Some P_ELIF).
    { intros y Hy. destruct (h_test h); cbn [head_words In] in Hy; try contradiction; destruct Hy as [<-|[]]; split; reflexivity. }
    destruct (head_preop (Pm := no_params) C [] false h P_ELIF X M Fw) as (E1 & E3).
    destruct (at_none (@calm_ws) m 1 Hm ltac:(lia) _ X (head_lineish (Pm := no_params) C [] _ _ M) Cm) as (e & E2 & Le & Ce & Lc). rewrite <- !app_assoc in E2.
    destruct (file_end (knot C m) true e yes no more (set_sess 2 s)) as (mk & ln' & (Mk & Lk) & Eu); auto.
    { rewrite f_n_is. unfold head_text in Lm. fold X. rewrite !app_length in *. cbn [length] in Lm. rewrite !app_length in *. lia. }
    destruct (skip_quietly _ _ _ _ _ _ _ G Eu) as (s' & Eq & G' & Lv').
    destruct (mark_over [zs "endif"] mk more) as (N1 & N2); [repeat constructor|exact Mk|].
    eexists. split; [|split; [apply line_good; exact G'|]].
    + change (head_text h) with (h_indent h ++ 35 :: head_rest h). rewrite (dir_pass m _ _ _ s f (mark_text mk ++ more) s'); [|exact Hm|exact B|exact Ne| |exact (good_no_error _ _ G')|exact N2].
      * rewrite N1. reflexivity.
      * unfold handle_preop. rewrite E3, E1, E2. rewrite bind_get. replace (s_iflevel s =? 0) with false by lia. cbn [whenM]. rewrite bind_ret. fold X in Eq. rewrite (bind_ok _ _ _ _ _ Eq). reflexivity.
    + cbn. lia.
Qed.

(** ** Blank lines and comments *)
Lemma remark_line c cr : match c with Some t => no_break t | None => True end -> lineish (remark c cr).
Proof. intros H. unfold remark. eexists _, cr. split; [reflexivity|]. destruct c; [constructor; [lia|exact H]|constructor]. Qed.
Lemma remark_over c cr x : is_eol (remark c cr ++ x) = true /\ skip_ws (remark c cr ++ x) = remark c cr ++ x /\ hd0 (remark c cr ++ x) <> 92 /\ isalpha (hd0 (remark c cr ++ x)) = false /\ (hd0 (remark c cr ++ x) =? 95) = false.
Proof. unfold remark. destruct c, cr; cbn [app eol_text]; (split; [reflexivity|split; [apply skip_ws_nonblank; unfold blank; lia|cbn; repeat split; lia]]). Qed.
Lemma note_pass m b c cr more s f : Forall blank b -> match c with Some t => no_break t | None => True end -> s_erroc s = false ->
  pass_loop (knot C (S (S m))) (S f) ((b ++ remark c cr) ++ more) s = pass_loop (knot C (S (S m))) f more (set_line (s_line s + 1) s).
Proof.
  intros B Nc Ne. rewrite <- app_assoc. set (r := remark c cr ++ more). destruct (remark_over c cr more) as (R1 & R2 & R3 & R4 & R5). fold r in R1, R2, R3, R4, R5.
  assert (E : f_line (knot C (S (S m))) (b ++ r) s = Ok (Some r) s).
  { change (f_line (knot C (S (S m)))) with (line_loop C (knot C (S m)) (S m)). cbn [line_loop].
    assert (E1 : skip_char 92 (b ++ r) = b ++ r).
    { unfold skip_char. replace (hd0 (b ++ r) =? 92) with false; [reflexivity|]. destruct B as [|y b Hy]; [cbn [app]; lia|]. cbn [app hd0]. unfold blank in Hy. lia. }
    rewrite E1. assert (E2 : line_sec C (knot C (S m)) (S (length (b ++ r))) (b ++ r) s = Ok (Some r) s).
    { destruct B as [|y b Hy B].
      - cbn [app]. rewrite line_sec_S, R1. reflexivity.
      - destruct (blank_space y Hy) as (B1 & B2 & B3 & _). cbn [app length]. rewrite line_sec_S, (blank_eol y _ Hy). cbn [hd0]. rewrite B1, B2. replace (y =? 95) with false by lia. cbn [orb].
        change (y :: b ++ r) with ((y :: b) ++ r). rewrite skip_ws_app by (constructor; assumption). rewrite R2, R4, R5. cbn [orb]. rewrite line_sec_S, R1. reflexivity. }
    rewrite (bind_ok _ _ _ _ _ E2), bind_get, Ne, R2. replace (hd0 r =? 92) with false by lia. reflexivity. }
  assert (Tn : exists y u, b ++ r = y :: u). { destruct b as [|y b]; [|cbn; eauto]. cbn [app]. unfold r, remark. destruct c, cr; cbn; eauto. } destruct Tn as (y & u & Tn). rewrite Tn in *.
  rewrite (pass_takes C m f y u s _ s Ne E). unfold r. now rewrite (lineish_next _ _ (remark_line c cr Nc)).
Qed.

(** ** Files *)
Lemma located_here n : file_name n -> (if is_abs_path n && exists_file C n then Some n else find_in C dirs n) = located (c_files C) dirs n.
Proof.
  intros F. rewrite rooted_abs. unfold located.
  assert (E : forall l, find_in C l n = find (fun f => isSome (c_files C f)) (map (in_dir n) l)).
  { induction l as [|d l IH]; [reflexivity|]. cbn [find_in map find]. change (fix_filename (d ++ 47 :: n)) with (in_dir n d). unfold exists_file at 1. fold (isSome (c_files C (in_dir n d))).
    rewrite IH. destruct (c_files C (in_dir n d)); reflexivity. }
  rewrite E. unfold exists_file. destruct (rooted n); cbn [andb app find]; [|reflexivity]. destruct (c_files C n); reflexivity.
Qed.
Lemma include_step m y inside rest D s : good D s -> file_ok (c_files C) dirs y inside -> line_over rest ->
  exists s2, good D s2 /\ s_iflevel s2 = s_iflevel s /\
    handle_preop C (knot C (S (S (S m)))) (paste_text (f_paste y) ++ rest) s =
    match pass_loop (knot C (S (S m))) (S (S m)) (front_text inside) s2 with
    | Ok _ s' => Ok (Some rest) (set_line (s_line s) (set_file (s_file s) s'))
    | Exit c s' => Exit c s' | Undef w => Undef w | NoFuel => NoFuel
    end.
Proof.
  intros G (Bi & Bc & Wi & Og & Of & Oa & Ol & f0 & Fl & Ff & Nz & Nb) Lo. set (z := f_paste y) in *.
  pose proof G as (K & A & So & Hh). pose proof (a_search _ _ _ _ A) as Sd.
  assert (Eg : skip_ws (z_gap z ++ (34 :: z_name z ++ 34 :: z_after z) ++ rest) = 34 :: z_name z ++ 34 :: z_after z ++ rest).
  { rewrite skip_ws_app by apply Og. cbn [app]. rewrite skip_ws_nonblank by (unfold blank; lia). now rewrite <- app_assoc. }
  destruct (preop_word (z_word z) [zs "include"] (z_gap z ++ (34 :: z_name z ++ 34 :: z_after z) ++ rest) P_INCLUDE Wi) as (E1 & E2 & E3).
  { repeat constructor. }
  { destruct Og as (Gn & Gb). destruct (z_gap z) as [|c g]; [congruence|]. inversion Gb; subst. now apply blank_space. }
  unfold handle_preop, paste_text. cbv zeta. rewrite <- (app_assoc (z_word z)), <- (app_assoc (z_gap z)), E1, E2, E3, Eg.
  assert (Pf : IncludeProps.plain_name (z_name z)) by (destruct Of as (H1 & H2 & _); split; assumption).
  destruct (IncludeProps.c34_include C (knot C (S (S (S m)))) (z_name z) (z_after z) rest s Pf Oa Ol Lo) as (f & Ef & Er).
  unfold full_path in Ef. rewrite bind_get in Ef. unfold ret in Ef. injection Ef as Ef. rewrite Sd, located_here, Fl in Ef by exact Of. subst f. rewrite Ff in Er. set (tx := front_text inside) in *.
  assert (Nb12 : is_bitmap tx = false /\ get_file_contents tx = Some tx).
  { destruct tx as [|c u]; [contradiction|]. destruct Nb as (N1 & N2). split; [|now apply contents_id]. unfold is_bitmap. destruct (Z.eq_dec c 66) as [->|Hc].
    - specialize (N2 eq_refl). destruct u as [|d u]; [reflexivity|]. cbn [hd0] in N2. clear - N2. repeat match goal with |- context [match ?x with _ => _ end] => is_var x; destruct x; try reflexivity end. congruence.
    - clear - Hc. repeat match goal with |- context [match ?x with _ => _ end] => is_var x; destruct x; try reflexivity end; congruence. }
  destruct Nb12 as (Nb1 & Nb2). rewrite Nb1, Nb2, (until_nul_id _ Nz) in Er.
  set (s1 := set_file f0 (set_infiles (f0 :: s_infiles s) s)) in *.
  pose (s2 := if c_ez80 C then set_adl true (set_line 1 s1) else set_line 1 s1).
  assert (Ep : f_pass (knot C (S (S (S m)))) tx s1 = pass_loop (knot C (S (S m))) (S (S m)) tx s2).
  { unfold s2. cbn [knot f_pass]. unfold run_first_pass. rewrite bind_upd. destruct (c_ez80 C); cbn [whenM]; [rewrite bind_upd|rewrite bind_ret]; reflexivity. }
  exists s2. split; [|split].
  - pose proof (k_adl _ _ _ _ _ _ K) as Ka. split; [unfold s2; destruct (c_ez80 C) eqn:Ez; destruct K; constructor; try assumption; now rewrite Ez|].
    split; [unfold s2; destruct (c_ez80 C); destruct A; constructor; try assumption; exact I|auto].
  - unfold s2. destruct (c_ez80 C); reflexivity.
  - rewrite Ep in Er. unfold bind. rewrite Er. destruct (pass_loop _ _ _ _); reflexivity.
Qed.

(** ** Everything in front of the program *)
(** The items are well-formed and their names are new. *)
Definition fresh_items (D : list (text * define)) (hs : list item) : Prop :=
  Forall (fun i => item_ok (key C) ops i /\ tfind (key C (item_name i)) D = None) hs /\ distinct (key C) (map item_name hs) = true.
Lemma distinct_parts f (a b : list text) : distinct f (a ++ b) = true -> distinct f a = true /\ distinct f b = true /\ forall x y, In x a -> In y b -> eqbl (f x) (f y) = false.
Proof.
  induction a as [|x a IH]; intros H; [split; [reflexivity|split; [exact H|intros x y []]]|]. cbn [app distinct] in *. apply andb_true_iff in H as (H1 & H2). rewrite forallb_app in H1. apply andb_true_iff in H1 as (H0 & H1).
  destruct (IH H2) as (P1 & P2 & P3). split; [now rewrite H0, P1|]. split; [exact P2|]. intros u v [<-|I] J; [|now apply P3]. rewrite forallb_forall in H1. specialize (H1 v J). now apply negb_true_iff in H1.
Qed.
Lemma fresh_parts D a b : fresh_items D (a ++ b) -> fresh_items D a /\ (forall D', defs_after C a D D' -> fresh_items D' b).
Proof.
  intros (F & Di). apply Forall_app in F as (Fa & Fb). rewrite map_app in Di. apply distinct_parts in Di as (Da & Db & X). split; [split; assumption|].
  intros D' (_ & H). split; [|exact Db]. rewrite Forall_forall in *. intros i I. destruct (Fb i I) as (Oi & Ni). split; [exact Oi|]. rewrite H; [exact Ni|].
  rewrite Forall_forall. intros q Iq. specialize (X (item_name q) (item_name i) (in_map _ _ _ Iq) (in_map _ _ _ I)). destruct (eqbl (key C (item_name i)) (key C (item_name q))) eqn:E; [|reflexivity]. apply eqbl_eq in E. rewrite E, eqbl_refl in X. discriminate X.
Qed.
Lemma after_app a b D D1 D2 : distinct (key C) (map item_name (a ++ b)) = true -> defs_after C a D D1 -> defs_after C b D1 D2 -> defs_after C (a ++ b) D D2.
Proof.
  intros Di (A1 & A2) (B1 & B2). rewrite map_app in Di. apply distinct_parts in Di as (_ & _ & X). split.
  - intros i I. apply in_app_or in I as [I|I]; [|now apply B1]. destruct (A1 i I) as (d & Fd & Kp). exists d. split; [|exact Kp]. rewrite B2; [exact Fd|].
    rewrite Forall_forall. intros q Iq. apply X; now apply in_map.
  - intros k F. apply Forall_app in F as (Fa & Fb). rewrite B2 by exact Fb. now apply A2.
Qed.
Lemma after_nil D : defs_after C [] D D.
Proof. split; [intros i []|reflexivity]. Qed.
Definition reaches (m : nat) (p more : text) (D : list (text * define)) (s : st) (hs : list item) : Prop :=
  forall fuel, (length p < fuel)%nat -> exists D' s' fuel', (length more < fuel')%nat /\ pass_loop (knot C (S (S m))) fuel p s = pass_loop (knot C (S (S m))) fuel' more s' /\
    good D' s' /\ defs_after C hs D D' /\ s_iflevel s <= s_iflevel s'.
Definition names_good (D : list (text * define)) : Prop := forall k d, tfind k D = Some d -> d_contents d <> None.
Lemma reaches_more m p mid more D s a b : distinct (key C) (map item_name (a ++ b)) = true -> names_good D -> reaches m p mid D s a ->
  (forall D1 s1, good D1 s1 -> defs_after C a D D1 -> names_good D1 -> s_iflevel s <= s_iflevel s1 -> reaches m mid more D1 s1 b) -> reaches m p more D s (a ++ b).
Proof.
  intros Di Nd R H fuel F. destruct (R fuel F) as (D1 & s1 & f1 & L1 & -> & G1 & A1 & V1). destruct (H D1 s1 G1 A1 (after_full C a D D1 A1 Nd) V1 f1 L1) as (D2 & s2 & f2 & L2 & -> & G2 & A2 & V2).
  exists D2, s2, f2. split; [exact L2|]. split; [reflexivity|]. split; [exact G2|]. split; [now apply (after_app a b D D1)|lia].
Qed.
Lemma reaches_line m p t more D s s1 hs : good D s1 -> s_iflevel s <= s_iflevel s1 -> (length t < length p)%nat ->
  (forall f, pass_loop (knot C (S (S m))) (S f) p s = pass_loop (knot C (S (S m))) f t s1) -> reaches m t more D s1 hs -> reaches m p more D s hs.
Proof.
  intros G V L E R fuel F. destruct fuel as [|f]; [lia|]. destruct (R f ltac:(lia)) as (D2 & s2 & f2 & L2 & E2 & G2 & A2 & V2).
  exists D2, s2, f2. split; [exact L2|]. split; [now rewrite E, E2|]. split; [exact G2|]. split; [exact A2|lia].
Qed.
Lemma reaches_done m p D s : good D s -> reaches m p p D s [].
Proof. intros G fuel F. exists D, s, fuel. split; [exact F|]. split; [reflexivity|]. split; [exact G|]. split; [apply after_nil|lia]. Qed.
Lemma back_eol a more : lineish a -> back1 (a ++ more) more = 10 :: more.
Proof. intros L. exact (at_none (@back_end) 20%nat (le_n 20) (Nat.le_0_l 20) a more L). Qed.
Lemma word_plain w l : word_is w l = true -> Forall (fun k => forallb isalpha k = true) l -> Forall inline w.
Proof. intros W F. exact (proj1 (word_letters w l W F)). Qed.
Lemma item_nonempty q : (0 < length (item_text q))%nat.
Proof. destruct q as [q|c|o]; cbn [item_text]; [rewrite macro_split|rewrite constant_split|rewrite short_split]; rewrite app_length; cbn [length]; lia. Qed.
Lemma item_reach m i more D s : (20 <= m)%nat -> fresh_items D [i] -> good D s -> (S (length (item_text i)) < m)%nat -> reaches m (item_text i ++ more) more D s [i].
Proof.
  intros Hm (F & _) G Lm fuel Fu. inversion F as [|? ? (Oi & Ni) _]; subst. pose proof (item_nonempty i). rewrite app_length in Fu. destruct fuel as [|f]; [lia|].
  assert (G0 : @AsmLine.good (Z.le (s_iflevel s)) dr no_params [] no_consts C D ops 1 [] 0 [] [] s) by (apply good_at; [exact G|apply Z.le_refl]).
  destruct (item_pass C (Z.le (s_iflevel s)) ops ops m i more D s f Hm Oi Ni G0 Lm) as (D' & s' & d & E & G' & Ht & Kp).
  exists D', s', f. split; [lia|]. split; [exact E|]. split; [now apply good_any in G'|]. split.
  - split; [intros q [<-|[]]; exists d; split; [now rewrite Ht, eqbl_refl|exact Kp]|]. intros k Fk. inversion Fk as [|? ? H1 _]; subst. now rewrite Ht, H1.
  - destruct G' as (_ & A & _). exact (a_level _ _ _ _ A).
Qed.
Lemma text_eol c cr : (0 < length (remark c cr))%nat.
Proof. unfold remark. rewrite app_length. destruct cr; cbn [eol_text length]; lia. Qed.
Lemma mark_pos mk : (0 < length (mark_text mk))%nat.
Proof. unfold mark_text. rewrite app_length. cbn [length]. lia. Qed.
Lemma head_pos h : (0 < length (head_text h))%nat.
Proof. unfold head_text. rewrite app_length. cbn [length]. lia. Qed.
Lemma alt_pos a : (0 < length (alt_text a))%nat.
Proof. destruct a; cbn [alt_text]; rewrite ?app_length; [apply mark_pos|pose proof (mark_pos m); lia|pose proof (head_pos h); lia]. Qed.
Lemma alt_reach m a more D s : (20 <= m)%nat -> good D s -> end_ok (key C) a -> 1 <= s_iflevel s -> (length (alt_text a ++ more) + 2 <= m)%nat ->
  forall fuel, (length (alt_text a ++ more) < fuel)%nat -> exists s' fuel', (length more < fuel')%nat /\ pass_loop (knot C (S (S m))) fuel (alt_text a ++ more) s = pass_loop (knot C (S (S m))) fuel' more s' /\ good D s' /\ s_iflevel s - 1 <= s_iflevel s'.
Proof.
  intros Hm G Oa Lv Lm fuel Fu. pose proof (alt_pos a). rewrite app_length in Fu. destruct fuel as [|f]; [lia|].
  destruct (alt_out m a more D s f Hm G Oa Lv Lm) as (s' & E & G' & V). exists s', f. split; [lia|]. split; [exact E|]. split; [exact G'|exact V].
Qed.
(** A branch that counts, after the line that opens it, and what ends the conditional. *)
Lemma branch_reach m t a more D s lv hs : (20 <= m)%nat -> good D s -> end_ok (key C) a -> 0 <= lv -> s_iflevel s = lv + 1 -> (length (alt_text a ++ more) + 2 <= m)%nat ->
  reaches m (t ++ alt_text a ++ more) (alt_text a ++ more) D s hs ->
  forall fuel, (length (t ++ alt_text a ++ more) < fuel)%nat -> exists D' s' fuel', (length more < fuel')%nat /\ pass_loop (knot C (S (S m))) fuel (t ++ alt_text a ++ more) s = pass_loop (knot C (S (S m))) fuel' more s' /\
    good D' s' /\ defs_after C hs D D' /\ lv <= s_iflevel s'.
Proof.
  intros Hm G Oa Lv El Lm R fuel Fu. destruct (R fuel Fu) as (D1 & s1 & f1 & L1 & -> & G1 & A1 & V1).
  destruct (alt_reach m a more D1 s1 Hm G1 Oa ltac:(lia) Lm f1 L1) as (s2 & f2 & L2 & -> & G2 & V2).
  exists D1, s2, f2. split; [exact L2|]. split; [reflexivity|]. split; [exact G2|]. split; [exact A1|lia].
Qed.
Theorem front_pass l : forall m more D s hs, (front_size l + length more + 24 <= m)%nat -> good D s -> 0 <= s_iflevel s -> names_good D ->
  front_ok (key C) (c_files C) dirs l -> counted (key C) (taken C D) l = Some hs -> fresh_items D hs -> reaches m (front_text l ++ more) more D s hs.
Proof.
  induction l as [|i l IH|b c cr l IH|y l1 IH1 l IH|h l1 IH1 a l IH|h o mk l1 IH1 e l IH|h o e l IH]; intros m more D s hs Sz G Lv Nd Ok_ Ct Fr; cbn [front_text front_size front_ok counted] in *; [|pose proof (front_length l) as Ll ..].
  - injection Ct as <-. now apply reaches_done.
  - apply joined_some in Ct as (a & b & [= <-] & Ct & ->). destruct (fresh_parts _ _ _ Fr) as (Fa & Fb). rewrite <- app_assoc. apply (reaches_more m _ (front_text l ++ more) more D s [i] b); [apply Fr|exact Nd|apply item_reach; auto; lia|].
    intros D1 s1 G1 A1 N1 V1. apply IH; auto; [lia|lia|]. rewrite <- Ct. apply counted_same. intros n. apply (after_taken C [i] D D1 n A1).
  - destruct Ok_ as (B & Nc & Ok_). rewrite <- app_assoc. pose proof (good_no_error _ _ G) as Ne. pose proof (text_eol c cr). rewrite app_length in Sz.
    apply (reaches_line m _ (front_text l ++ more) more D s (set_line (s_line s + 1) s)); [now apply line_good|cbn; lia|rewrite !app_length; lia|intros f; now apply note_pass|].
    apply IH; auto; [lia|now apply line_good].
  - destruct Ok_ as (Of & O1 & O2). apply joined_some in Ct as (a & b & C1 & C2 & ->). destruct (fresh_parts _ _ _ Fr) as (Fa & Fb).
    pose proof Of as (Bi & Bc & _). pose proof (good_no_error _ _ G) as Ne. set (rest := remark (f_comment y) (f_cr y) ++ front_text l ++ more).
    assert (Et : (fline_text y ++ front_text l) ++ more = (f_indent y ++ 35 :: paste_text (f_paste y)) ++ rest) by (unfold fline_text, rest; rewrite <- !app_assoc; cbn [app]; now rewrite <- !app_assoc).
    destruct m as [|[|[|m]]]; try lia. assert (Lo : line_over rest).
    { right. unfold rest, remark. destruct (f_comment y), (f_cr y); cbn [app eol_text]; eexists _, _; (split; [reflexivity|unfold line_ender; lia]). }
    destruct (include_step m y l1 rest D s G Of Lo) as (s2 & G2 & V2 & E2). pose proof (front_length l1) as Ll1.
    pose proof (IH1 m [] D s2 a) as R1. rewrite app_nil_r in R1. cbn [length] in R1. destruct (R1 ltac:(lia) G2 ltac:(lia) Nd O1 C1 Fa (S (S m)) ltac:(lia)) as (D1 & s3 & f3 & L3 & E3 & G3 & A3 & V3).
    destruct f3 as [|f3]; [cbn in L3; lia|]. assert (E4 : pass_loop (knot C (S (S m))) (S f3) [] s3 = Ok tt s3) by (cbn [pass_loop]; rewrite bind_get; reflexivity). rewrite E3, E4 in E2.
    set (s4 := set_line (s_line s) (set_file (s_file s) s3)) in *.
    assert (G4 : good D1 s4) by (destruct G3 as (K3 & A3' & So3 & Hh3); split; [destruct K3; constructor; assumption|split; [destruct A3'; constructor; try assumption; exact I|split; assumption]]).
    assert (Ln : skip_to_next_line rest = front_text l ++ more) by (apply lineish_next; now apply remark_line).
    assert (R2 : reaches (S (S (S m))) (front_text l ++ more) more D1 (set_line (s_line s4 + 1) s4) b).
    { apply IH; [lia|now apply line_good|cbn; lia|exact (after_full C a D D1 A3 Nd)|exact O2| |now apply Fb]. rewrite <- C2. apply counted_same. intros n. apply (after_taken C a D D1 n A3). }
    rewrite Et. intros fuel Fu. destruct fuel as [|f]; [lia|].
    rewrite (dir_pass (S (S (S m))) (f_indent y) (paste_text (f_paste y)) rest s f rest s4 ltac:(lia) Bi Ne E2 (good_no_error _ _ G4)); [|destruct (remark_over (f_comment y) (f_cr y) (front_text l ++ more)) as (_ & W & W2 & _); unfold rest; rewrite W; exact W2].
    rewrite Ln. assert (Lr : (length (front_text l ++ more) <= length rest)%nat) by (unfold rest; rewrite !app_length; lia).
    destruct (R2 f) as (D2 & s5 & f5 & L5 & -> & G5 & A5 & V5); [rewrite app_length in Fu; rewrite (app_length (f_indent y)) in Fu; cbn [length] in Fu; lia|].
    exists D2, s5, f5. split; [exact L5|]. split; [reflexivity|]. split; [exact G5|]. split; [apply (after_app a b D D1); [apply Fr|exact A3|exact A5]|]. change (s_iflevel (set_line (s_line s4 + 1) s4)) with (s_iflevel s3) in V5. lia.
  - destruct Ok_ as (Oh & (sk & Sk & Osk) & O1 & Oa & O2). apply joined_some in Ct as (a0 & b & C1 & C2 & ->). apply only_some in C1 as (As & C1). destruct (fresh_parts _ _ _ Fr) as (Fa & Fb).
    pose proof (front_length l1) as Ll1. rewrite <- !app_assoc. pose proof (good_no_error _ _ G) as Ne. pose proof (head_pos h) as Hp.
    assert (Rs : reaches m (head_text h ++ front_text l1 ++ alt_text a ++ front_text l ++ more) (front_text l ++ more) D s a0).
    { destruct (asked_line m h sk a (front_text l ++ more) D s true ltac:(lia) G Nd Oh As Osk Oa) as (Bi & ln & E1). { rewrite Sk. rewrite !app_length. lia. }
      rewrite Sk in E1. set (s1 := set_iflevel (s_iflevel s + 1) s) in *. pose proof Oh as (_ & _ & _ & _ & _ & Oe & _).
      intros fuel Fu. destruct fuel as [|f]; [lia|]. change (head_text h) with (h_indent h ++ 35 :: head_rest h).
      rewrite (dir_pass m (h_indent h) (head_rest h) (front_text l1 ++ alt_text a ++ front_text l ++ more) s f (ending_text (h_end h) ++ front_text l1 ++ alt_text a ++ front_text l ++ more) s1 ltac:(lia) Bi Ne E1 Ne).
      2:{ rewrite ending_ws' by assumption. unfold ending_core. destruct (e_comment (h_end h)), (e_cr (h_end h)); cbn; lia. }
      rewrite ending_next by assumption. set (s2 := set_line (s_line s1 + 1) s1). assert (G2 : good D s2) by now apply line_good, level_good.
      destruct (branch_reach m (front_text l1) a (front_text l ++ more) D s2 (s_iflevel s) a0 ltac:(lia) G2 Oa Lv ltac:(reflexivity)) with (fuel := f) as (D1 & s3 & f3 & L3 & -> & G3 & A3 & V3).
      - rewrite !app_length. lia.
      - apply IH1; auto; [rewrite !app_length; lia|cbn; lia].
      - rewrite app_length in Fu. lia.
      - exists D1, s3, f3. auto. }
    apply (reaches_more m _ (front_text l ++ more) more D s a0 b); [apply Fr|exact Nd|exact Rs|].
    intros D1 s1 G1 A1 N1 V1. apply IH; auto; [lia|lia|]. rewrite <- C2. apply counted_same. intros n. apply (after_taken C a0 D D1 n A1).
  - destruct Ok_ as (Oh & Oo & Om & (sk & Sk & Osk) & O1 & Oe & O2). apply joined_some in Ct as (a0 & b & C1 & C2 & ->). apply only_some in C1 as (As & C1). destruct (fresh_parts _ _ _ Fr) as (Fa & Fb).
    pose proof (front_length l1) as Ll1. rewrite <- !app_assoc. pose proof (good_no_error _ _ G) as Ne. pose proof (head_pos h) as Hp. rewrite !app_length in Sz.
    set (x := front_text l1 ++ mark_text e ++ front_text l ++ more).
    assert (Rs : reaches m (head_text h ++ blocks_text o ++ mark_text mk ++ x) (front_text l ++ more) D s a0).
    { destruct (asked_line m h o (Else mk sk e) (front_text l ++ more) D s false ltac:(lia) G Nd Oh As Oo) as (Bi & ln & E1). { split; [exact Om|]. split; [exact Osk|exact Oe]. } { cbn [alt_text]. rewrite Sk. rewrite !app_length. lia. }
      cbn [alt_text] in E1. rewrite Sk, <- !app_assoc in E1. fold x in E1. destruct (mark_else _ Om) as (Dm & _ & _ & S3 & S4). rewrite !(directive_word _ _ _ _ Dm) in E1 by (simpl; auto). rewrite S3 in E1. rewrite bind_ret in E1.
      assert (En : back1 (mark_text mk ++ x) (next_code_line (mark_text mk ++ x)) = 10 :: x).
      { pose proof Om as (Bm & Wi & Oi & _). replace (next_code_line (mark_text mk ++ x)) with x; [apply back_eol; apply Dm|]. symmetry.
        pose proof (word_plain _ _ Wi ltac:(repeat constructor)) as Wl. unfold mark_text. rewrite <- app_assoc. change ((35 :: m_word mk ++ ending_text (m_end mk)) ++ x) with (35 :: (m_word mk ++ ending_text (m_end mk)) ++ x). rewrite <- app_assoc.
        apply (next_after (m_indent mk) (35 :: m_word mk) [] (m_end mk) x); auto; [|exists 35, (m_word mk); split; [reflexivity|]; unfold blank; lia].
        apply flat_chars. constructor; [unfold inline, line_ender; lia|exact Wl]. }
      rewrite En in E1. set (s1 := set_line ln (set_iflevel (s_iflevel s + 1) s)) in *.
      intros fuel Fu. destruct fuel as [|f]; [lia|]. change (head_text h) with (h_indent h ++ 35 :: head_rest h).
      rewrite (dir_pass m (h_indent h) (head_rest h) (blocks_text o ++ mark_text mk ++ x) s f (10 :: x) s1 ltac:(lia) Bi Ne E1 Ne); [|cbn; lia].
      change (skip_to_next_line (10 :: x)) with x. set (s2 := set_line (s_line s1 + 1) s1). assert (G2 : good D s2) by now apply line_good, line_good, level_good.
      destruct (branch_reach m (front_text l1) (End e) (front_text l ++ more) D s2 (s_iflevel s) a0 ltac:(lia) G2 Oe Lv ltac:(reflexivity)) with (fuel := f) as (D1 & s3 & f3 & L3 & E3 & G3 & A3 & V3).
      - cbn [alt_text]. rewrite !app_length. lia.
      - apply IH1; auto; [cbn [alt_text]; rewrite !app_length; lia|cbn; lia].
      - cbn [alt_text]. fold x. rewrite !app_length in Fu. lia.
      - cbn [alt_text] in E3. fold x in E3. rewrite E3. exists D1, s3, f3. auto. }
    apply (reaches_more m _ (front_text l ++ more) more D s a0 b); [apply Fr|exact Nd|exact Rs|].
    intros D1 s1 G1 A1 N1 V1. apply IH; auto; [lia|lia|]. rewrite <- C2. apply counted_same. intros n. apply (after_taken C a0 D D1 n A1).
  - destruct Ok_ as (Oh & Oo & Oe & O2). apply only_some in Ct as (As & C2). rewrite <- !app_assoc. pose proof (good_no_error _ _ G) as Ne. pose proof (head_pos h) as Hp. rewrite !app_length in Sz.
    destruct (asked_line m h o (End e) (front_text l ++ more) D s false ltac:(lia) G Nd Oh As Oo Oe) as (Bi & ln & E1). { cbn [alt_text]. rewrite !app_length. lia. }
    cbn [alt_text] in E1. destruct (mark_endif _ Oe) as (Dm & _ & _ & S3 & S4). rewrite !(directive_word _ _ _ _ Dm) in E1 by (simpl; auto). rewrite S3, S4 in E1. rewrite bind_ret in E1.
    destruct (mark_over [zs "endif"] e (front_text l ++ more)) as (N1 & N2); [repeat constructor|exact Oe|].
    set (s1 := set_line ln (set_iflevel (s_iflevel s + 1) s)) in *. assert (G1 : good D s1) by now apply line_good, level_good.
    apply (reaches_line m _ (front_text l ++ more) more D s (set_line (s_line s1 + 1) s1)); [now apply line_good|cbn; lia|rewrite !app_length; lia| |].
    + intros f. change (head_text h) with (h_indent h ++ 35 :: head_rest h).
      rewrite (dir_pass m (h_indent h) (head_rest h) (blocks_text o ++ mark_text e ++ front_text l ++ more) s f (mark_text e ++ front_text l ++ more) s1 ltac:(lia) Bi Ne E1 Ne N2). now rewrite N1.
    + apply IH; auto; [lia|now apply line_good|cbn; lia].
Qed.
End FrontRun.
