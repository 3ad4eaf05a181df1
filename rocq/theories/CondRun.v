(** The assembler on programs with conditional blocks. *)
From Verif Require Import Base BaseProofs State MonadProofs UtilsModel ErrorsModel StorageModel ParserModel PassTwoModel
  PreopModel PassOneModel DirectiveModel Knot OpcodeTables UtilsSpec UtilsProofs StorageProofs PassTwoSpec PassTwoProofs
  ParserSpec ParserProofs ParserProps StringProps InstrSpec InstrProps MatchSpec MatchProps AsmSpec AsmExpand AsmProofs AsmData AsmInstr AsmLine
  CondSpec CondSkip.

(** ** Expressions and line ends *)
Definition enders : text := [92; 59; 13; 10].
Definition flat (te : text) : Prop := exists l, pieces_text l = te /\ Forall (flat_ok enders) l.
Definition shut (te : text) : Prop := exists t c, te = t ++ [c] /\ ~ line_ender c.
Definition inline (c : Z) : Prop := c <> 34 /\ c <> 39 /\ ~ line_ender c.
Lemma flat_app a b : flat a -> flat b -> flat (a ++ b).
Proof. intros (l & <- & F) (k & <- & G). exists (l ++ k). split; [unfold pieces_text; now rewrite flat_map_app|]. apply Forall_app. auto. Qed.
Lemma flat_chars w : Forall inline w -> flat w.
Proof.
  intros F. exists (map PChar w). split; [clear F; unfold pieces_text; induction w as [|c w IH]; [reflexivity|cbn; now rewrite IH]|].
  apply Forall_forall. intros q I. apply in_map_iff in I as (c & <- & I). rewrite Forall_forall in F. destruct (F c I) as (A & B & E). constructor; auto. unfold enders, line_ender in *. simpl. lia.
Qed.
Lemma blank_inline b : Forall blank b -> Forall inline b.
Proof. intros F. eapply Forall_impl; [|exact F]. intros c. unfold blank, inline, line_ender. lia. Qed.
Lemma name_inline2 w : Forall ParserSpec.name_char w -> Forall inline w.
Proof. intros F. eapply Forall_impl; [|exact F]. intros c. unfold ParserSpec.name_char, ParserSpec.letter_or_digit, inline, line_ender. simpl. lia. Qed.
Lemma shut_app a b : shut b -> shut (a ++ b).
Proof. intros (t & c & -> & H). exists (a ++ t), c. split; [apply app_assoc|exact H]. Qed.
Lemma shut_inline w : w <> [] -> Forall inline w -> shut w.
Proof. intros N F. destruct (exists_last N) as (t & c & ->). apply Forall_app in F as (_ & F). inversion F as [|? ? (_ & _ & H) _]; subst. now exists t, c. Qed.
Lemma flat_atom a : atom_ok a -> flat (atom_text a) /\ shut (atom_text a).
Proof.
  destruct a as [l| |n|c|c]; cbn [atom_ok atom_text]; intros H.
  - destruct (literal_names l H) as (w & Hw & Hn & E). pose proof (name_inline2 w Hw) as Iw.
    assert (G : forall c, c = 36 \/ c = 37 -> flat (c :: w) /\ shut (c :: w)).
    { intros c Hc. assert (I : Forall inline (c :: w)) by (constructor; [unfold inline, line_ender; lia|exact Iw]). split; [now apply flat_chars|]. apply shut_inline; [discriminate|exact I]. }
    destruct E as [->|[->| ->]]; [split; [now apply flat_chars|now apply shut_inline]|apply G; auto|apply G; auto].
  - change (zs "$") with [36]. split; [apply flat_chars; constructor; [unfold inline, line_ender; lia|constructor]|]. exists [], 36. split; [reflexivity|]. unfold line_ender. lia.
  - destruct H as (_ & (x & t & E & _) & H). pose proof (name_inline2 _ H) as In. split; [now apply flat_chars|]. apply shut_inline; [rewrite E; discriminate|exact In].
  - split; [exists [PLit c]; split; [reflexivity|]; repeat constructor; exact H|]. exists [39; c], 39. split; [reflexivity|]. unfold line_ender. lia.
  - split; [exists [PEsc c]; split; [reflexivity|]; repeat constructor|]. exists [39; 92; c], 39. split; [reflexivity|]. unfold line_ender. lia.
Qed.
Lemma flat_written : (forall t tt, writes_term t tt -> flat tt /\ shut tt) /\ (forall e te, writes e te -> flat te /\ shut te).
Proof.
  assert (Sg : forall g, flat (sign_text g)) by (intros g; apply flat_chars; destruct g; repeat first [apply Forall_nil|apply Forall_cons; [unfold inline, line_ender; simpl; lia|]]).
  assert (Op : forall o, flat (spelling o)) by (intros o; apply flat_chars; destruct o; repeat first [apply Forall_nil|apply Forall_cons; [unfold inline, line_ender; simpl; lia|]]).
  assert (Ch : forall c, inline c -> flat [c]) by (intros c H; apply flat_chars; constructor; [exact H|constructor]).
  assert (P1 : inline 40 /\ inline 41) by (unfold inline, line_ender; lia).
  apply writes_ind2.
  - intros g w a Ha Hw _. destruct (flat_atom a Ha) as (F & S). split; [apply flat_app; [apply Sg|]; apply flat_app; [apply flat_chars; now apply blank_inline|exact F]|now apply shut_app, shut_app].
  - intros g w w1 e te w2 Hw _ Hw1 _ (F & S) Hw2. split.
    + apply flat_app; [apply Sg|]. apply flat_app; [apply flat_chars; now apply blank_inline|]. apply (flat_app [40]); [apply Ch, P1|].
      apply flat_app; [apply flat_chars; now apply blank_inline|]. apply flat_app; [exact F|]. apply flat_app; [apply flat_chars; now apply blank_inline|apply Ch, P1].
    + apply shut_app, shut_app, (shut_app [40]), shut_app, shut_app, shut_app. exists [], 41. split; [reflexivity|]. apply P1.
  - auto.
  - intros e te w1 o w2 t tt _ (F1 & _) Hw1 Hw2 _ (F2 & S2) _. split.
    + repeat (apply flat_app; auto); apply flat_chars; now apply blank_inline.
    + now apply shut_app, shut_app, shut_app, shut_app.
Qed.
Lemma drop_eol_text A cr : shut A -> drop_eol (rev (A ++ eol_text cr)) = rev A.
Proof.
  intros (t & c & -> & H). rewrite rev_app_distr, rev_app_distr. cbn [rev app].
  assert (E : forall r, drop_eol (c :: r) = c :: r) by (intros r; cbn [drop_eol]; now rewrite (is_eol_not c r H)).
  destruct cr; cbn [eol_text rev app drop_eol is_eol]; apply E.
Qed.
(** The end of a directive line, after the blanks. *)
Lemma code_break_ending e rest : ending_ok e -> code_break (match e_comment e with Some t => 59 :: t | None => [] end ++ eol_text (e_cr e) ++ rest) rest.
Proof.
  intros (_ & Cm). assert (B : broken (eol_text (e_cr e) ++ rest) rest) by (destruct (e_cr e); constructor).
  destruct (e_comment e) as [t|]; [|now apply cb_line]. cbn [app]. apply cb_comment; [|exact B]. eapply Forall_impl; [|exact Cm]. intros c (H1 & H2). unfold line_break. lia.
Qed.
Lemma next_after gap te b e rest : Forall blank gap -> flat te -> (exists c t, te = c :: t /\ ~ blank c /\ c <> 41) -> Forall blank b -> ending_ok e ->
  next_code_line (gap ++ te ++ b ++ ending_text e ++ rest) = rest.
Proof.
  intros G (l & <- & F) (c & t & E & N1 & N2) B O. pose proof O as (Bb & _). destruct (flat_chars (b ++ e_blanks e)) as (l2 & E2 & F2); [apply blank_inline, Forall_app; auto|].
  unfold ending_text. rewrite <- !app_assoc, (app_assoc b), <- E2, (app_assoc (pieces_text l)). replace (pieces_text l ++ pieces_text l2) with (pieces_text (l ++ l2)) by (unfold pieces_text; apply flat_map_app).
  apply next_code_line_spec; [exact G|apply Forall_app; auto| |now apply code_break_ending].
  right. exists c. unfold pieces_text in *. rewrite flat_map_app, E. cbn [app]. eexists. split; [reflexivity|]. auto.
Qed.
Lemma flat_head c t : flat (c :: t) -> ~ line_ender c.
Proof.
  intros (l & E & F). destruct l as [|q l]; [discriminate|]. inversion F as [|? ? Fq _]; subst. unfold pieces_text in E. cbn [flat_map] in E.
  destruct Fq as [x H1 H2 H3 H4|k _|x _|x]; cbn [piece_text app] in E; injection E as <- _; [exact H4| | |]; unfold line_ender; lia.
Qed.
Lemma next_split {B} (t : text) (x y : B) : t <> [] -> match t with [] => x | _ => y end = y.
Proof. destruct t; [congruence|reflexivity]. Qed.

(** Nothing is known about the nesting of conditionals. *)
Definition any_level : Level := fun _ => True.
Section CondLines.
Context {dr : Dirs} {Pm : Params} {fr : Frame} {Cs : Consts} {Ca : Calls}.
Variable C : cfg.
Variable D : list (text * define).
Variable ops : list opcode.
Hypothesis normal : c_normal C = true.
Hypothesis no_counter : c_counter C = false.
Hypothesis D_names : forall w, ~ name_start (hd0 w) -> tfind (key C w) D = None.
Hypothesis D_full : forall k d, tfind k D = Some d -> d_contents d <> None.
Variable n2 : nat.
Hypothesis deep2 : (20 <= n2)%nat.
Hypothesis known_table : ops = opcode_list \/ ops = opcode_list_ez80.
Notation core := (core C D ops).
Notation fills := (fills C D ops n2).
Notation taken := (taken C D).
Notation val := (val (c_wrap C) (key C)).
Notation good := (@AsmLine.good any_level dr Pm fr Cs C D ops).
Variable enough : nat.
Hypothesis lawful : calls_lawful C.
Hypothesis run_calls : forall lv : Z, 0 <= lv -> @calls_run (Z.le lv) dr Pm fr Cs Ca C D ops n2 enough.
Lemma good_any (lv : Level) k now here out q s : @AsmLine.good lv dr Pm fr Cs C D ops k now here out q s -> good k now here out q s.
Proof. intros (K & A & So & H). split; [exact K|]. split; [destruct A; constructor; try assumption; exact I|split; assumption]. Qed.
Lemma good_at (lv : Level) k now here out q s : good k now here out q s -> lv (s_iflevel s) -> @AsmLine.good lv dr Pm fr Cs C D ops k now here out q s.
Proof. intros (K & A & So & H) L. split; [exact K|]. split; [destruct A; constructor; assumption|split; assumption]. Qed.
Notation head_ok := (head_ok (key C) taken).
Notation blocks_ok := (blocks_ok (key C) taken).
Notation alt_ok := (alt_ok (key C) taken).
Notation holds := (holds (c_wrap C) (key C) taken).
Notation known := (known_name (key C) taken).

(** ** Looking for the end of a branch *)
Let any_text (_ : text) : Prop := True.
Let any_app (a b : text) (_ : any_text (a ++ b)) : any_text a /\ any_text b := conj I I.
Lemma until_gen R words u e b a more s (Hw : forall w, In w words -> In w stop_words) (P : text -> st -> Prop) :
  lineish e -> calm true e = true -> blocks_ok true b -> s_erroc s = false ->
  (S (length (e ++ blocks_text b ++ alt_text a ++ more)) < f_n R)%nat ->
  (forall f ln, (length (alt_text a ++ more) < f)%nat -> exists r ln', skip_until_loop R f u words 0 ln (alt_text a ++ more) s = Ok r (state_after s u ln') /\ P r s) ->
  exists r ln', skip_until R u words (e ++ blocks_text b ++ alt_text a ++ more) s = Ok r (state_after s u ln') /\ P r s.
Proof.
  intros L Cm Ob Ne Lf K. unfold skip_until. rewrite bind_get. rewrite !app_length in Lf.
  assert (Le : (0 < length e)%nat) by (destruct L as (y & cr & -> & _); rewrite app_length; destruct cr; cbn; lia).
  rewrite (skip_calm R words any_text any_app (fun w I => or_introl (Hw w I)) s Ne) by (first [exact I|assumption|lia]).
  destruct (proj1 (passes_text (key C) taken R words any_text any_app (fun w I => or_introl (Hw w I)) s Ne) b I Ob u 0 (s_line s + 1) (alt_text a ++ more) (length (e ++ blocks_text b ++ alt_text a ++ more))) as (f2 & ln2 & L2 & ->); [lia|lia|rewrite !app_length; lia|].
  now apply K.
Qed.
Lemma until_end R u e b a more s : lineish e -> calm true e = true -> blocks_ok true b -> alt_ok a -> s_erroc s = false ->
  (S (length (e ++ blocks_text b ++ alt_text a ++ more)) < f_n R)%nat ->
  exists m ln', (mark_ok [zs "endif"] m /\ (length (mark_text m) <= length (alt_text a))%nat) /\ skip_until R u [zs "#endif"] (e ++ blocks_text b ++ alt_text a ++ more) s = Ok (mark_text m ++ more) (state_after s u ln').
Proof.
  intros L Cm Ob Oa Ne Lf.
  assert (Hw : forall w, In w [zs "#endif"] -> In w stop_words) by (intros w [<-|[]]; simpl; auto).
  destruct (until_gen R [zs "#endif"] u e b a more s Hw (fun r _ => exists m, (mark_ok [zs "endif"] m /\ (length (mark_text m) <= length (alt_text a))%nat) /\ r = mark_text m ++ more)) as (r & ln' & E & m & Om & ->); auto.
  - intros f ln Lg. rewrite !app_length in Lf. destruct (stops_last (key C) taken R [zs "#endif"] any_text any_app (fun w I => or_introl (Hw w I)) s Ne a eq_refl I Oa u ln more f) as (m & ln' & Om & E); [lia|exact Lg|].
    exists (mark_text m ++ more), ln'. split; [exact E|]. eauto.
  - exists m, ln'. auto.
Qed.
Lemma until_alt R u e b a more s : lineish e -> calm true e = true -> blocks_ok true b -> alt_ok a -> s_erroc s = false ->
  (S (length (e ++ blocks_text b ++ alt_text a ++ more)) < f_n R)%nat ->
  exists ln', skip_until R u else_words (e ++ blocks_text b ++ alt_text a ++ more) s = Ok (alt_text a ++ more) (state_after s u ln').
Proof.
  intros L Cm Ob Oa Ne Lf.
  assert (Hw : forall w, In w else_words -> In w stop_words) by auto.
  destruct (until_gen R else_words u e b a more s Hw (fun r _ => r = alt_text a ++ more)) as (r & ln' & E & ->); auto.
  - intros f ln Lg. rewrite !app_length in Lf. exists (alt_text a ++ more), ln. split; [|reflexivity]. apply (stops_first (key C) taken R else_words any_text any_app (fun w I => or_introl (Hw w I)) s Ne); auto; try exact I; lia.
  - eauto.
Qed.

(** ** Evaluating a test *)
Lemma if_value m k now s gap w e rest v : (20 <= m)%nat -> core k now s -> known_ok (key C) taken w -> val (s_pc s) now (w_expr w) = Some v ->
  Forall blank gap -> ending_ok e -> match e_comment e with Some t => exists u c, t = u ++ [c] /\ ~ line_ender c | None => True end ->
  calm true (gap ++ wr w ++ ending_text e) = true -> rest <> [] ->
  handle_preop_if (knot C m) (gap ++ wr w ++ ending_text e ++ rest) s =
  do_if (knot C m) (eol_text (e_cr e) ++ rest) (negb (v =? 0)) (set_depth 0 (set_fwd false s)).
Proof.
  intros Hm K Kw V G Oe Ce Cm Rn. pose proof Kw as ((B1 & W & B2 & N & _) & F). destruct (proj2 flat_written _ _ W) as (Fl & Sh).
  assert (Hd : exists c t, w_text w = c :: t /\ ~ blank c /\ c <> 41).
  { destruct (proj2 expression_shape _ _ W) as (_ & Bg & _). apply begins_head in Bg as (c & t & E & Nb). exists c, t. split; [exact E|]. split; [exact Nb|]. intros ->.
    unfold wr in Cm. rewrite <- !app_assoc, app_assoc in Cm. apply calm_blanks in Cm; [|apply Forall_app; auto|reflexivity]. rewrite E in Cm. discriminate. }
  set (p := gap ++ wr w ++ ending_text e ++ rest). assert (Ep : p = (gap ++ w_before w) ++ w_text w ++ w_after w ++ ending_text e ++ rest) by (unfold p, wr; now rewrite <- !app_assoc).
  assert (Gb : Forall blank (gap ++ w_before w)) by (apply Forall_app; auto).
  assert (E1 : is_eol p = false).
  { rewrite Ep. destruct (gap ++ w_before w) as [|x g].
    - destruct Hd as (c & t & E & _). rewrite E in *. cbn [app]. apply is_eol_not. now apply flat_head in Fl.
    - inversion Gb; subst. cbn [app]. now apply blank_eol. }
  assert (E2 : next_code_line p = rest) by (rewrite Ep; now apply next_after).
  set (com := match e_comment e with Some t => 59 :: t | None => [] end).
  set (A := gap ++ wr w ++ e_blanks e ++ com).
  assert (Ea : p = A ++ eol_text (e_cr e) ++ rest) by (unfold p, A, ending_text, com; now rewrite <- !app_assoc).
  assert (Sa : shut A).
  { unfold A. apply shut_app. pose proof Oe as (Bb & _). unfold com. destruct (e_comment e) as [t|].
    - destruct Ce as (u & c & -> & Nc). apply shut_app, shut_app. exists (59 :: u), c. now split.
    - rewrite app_nil_r. unfold wr. rewrite <- !app_assoc. apply shut_app. destruct (w_after w ++ e_blanks e) as [|x t] eqn:Q; [rewrite app_nil_r; exact Sh|]. apply shut_app. apply shut_inline; [discriminate|]. rewrite <- Q. apply blank_inline, Forall_app. auto. }
  assert (E3 : skip_to_code_line_end p p = Some (eol_text (e_cr e) ++ rest)).
  { unfold skip_to_code_line_end. rewrite E2, next_split by exact Rn.
    assert (Es : seg p rest = A ++ eol_text (e_cr e)) by (rewrite Ea, app_assoc; apply seg_app). rewrite Es, drop_eol_text by exact Sa.
    destruct (rev A) as [|x t] eqn:Q; [destruct Sa as (u & c & -> & _); rewrite rev_app_distr in Q; discriminate|]. rewrite <- Q, rev_length, Ea. rewrite skipn_app, skipn_all, Nat.sub_diag. reflexivity. }
  unfold handle_preop_if. rewrite E1, E3.
  assert (E4 : parse_num (knot C m) (seg p (eol_text (e_cr e) ++ rest)) s = Ok (Some v) (set_depth 0 (set_fwd false s))).
  { rewrite Ea, seg_app. unfold A, wr. replace (gap ++ (w_before w ++ w_text w ++ w_after w) ++ e_blanks e ++ com) with ((gap ++ w_before w) ++ w_text w ++ (w_after w ++ e_blanks e) ++ com) by (now rewrite <- !app_assoc).
    refine (parse_known C D ops D_names m Hm k now s (w_expr w) (w_text w) _ _ com v K F W N Gb _ _ V); [apply Forall_app; split; [exact B2|apply Oe]|].
    unfold com, line_end. destruct (e_comment e); [right; eexists _, _; split; [reflexivity|]; unfold line_ender; lia|now left]. }
  rewrite (bind_ok _ _ _ _ _ E4). reflexivity.
Qed.

(** ** Directive lines in a pass *)
Lemma skip_next_ws t : skip_to_next_line (skip_ws t) = skip_to_next_line t.
Proof.
  unfold skip_to_next_line. do 2 f_equal. destruct (skip_ws_spec t) as (a & E & B & _). rewrite E at 2. clear E. induction B as [|c a H B IH]; [reflexivity|].
  cbn [app to_line_break]. unfold blank in H. replace ((c =? 10) || (c =? 13)) with false by lia. exact IH.
Qed.
Lemma dir_line m indent v more s : Forall blank indent ->
  line_loop C (knot C (S m)) (S m) ((indent ++ 35 :: v) ++ more) s =
  (r <- handle_preop C (knot C m) (v ++ more) ;;
   match r with
   | None => ret None
   | Some q => e <- get s_erroc ;; if negb e && (hd0 (skip_ws q) =? 92) then line_loop C (knot C (S m)) m (skip_ws q) else ret (Some (skip_ws q))
   end) s.
Proof.
  intros B. clear - B. cbn [line_loop]. set (p := (indent ++ 35 :: v) ++ more).
  assert (E1 : skip_char 92 p = p). { unfold skip_char, p. destruct indent as [|c i]; [reflexivity|]. inversion B; subst. cbn [app hd0]. unfold blank in *. replace (c =? 92) with false by lia. reflexivity. }
  assert (E2 : line_sec C (knot C (S m)) (S (length p)) p = handle_preop C (knot C m) (v ++ more)).
  { unfold p. destruct indent as [|c i].
    - cbn [app]. rewrite line_sec_S. reflexivity.
    - inversion B as [|? ? Bc Bi]; subst. destruct (blank_space c Bc) as (B1 & B2 & B3 & _). cbn [app length]. rewrite line_sec_S, (blank_eol c _ Bc). cbn [hd0]. rewrite B1, B2. replace (c =? 95) with false by lia. cbn [orb].
      assert (E : skip_ws (c :: (i ++ 35 :: v) ++ more) = 35 :: v ++ more).
      { change (c :: (i ++ 35 :: v) ++ more) with (((c :: i) ++ 35 :: v) ++ more). rewrite <- app_assoc, skip_ws_app by exact B. cbn [app]. apply skip_ws_nonblank. unfold blank. lia. }
      rewrite E. cbn [hd0 isalpha isupper islower]. change (isalpha 35 || (35 =? 95)) with false. cbv iota. rewrite line_sec_S. reflexivity. }
  rewrite E1, E2. reflexivity.
Qed.
Lemma preop_word word l x o : word_is word l = true -> Forall (fun k => forallb isalpha k = true /\ find_ci k preops = Some o) l -> isspace (hd0 x) = true ->
  skip_nonspace (word ++ x) = x /\ seg (word ++ x) x = word /\ find_ci word preops = Some o.
Proof.
  intros W F Sp. unfold word_is in W. apply existsb_exists in W as (k & I & E). rewrite Forall_forall in F. destruct (F k I) as (Fa & Fo). destruct (word_same word k E) as (W1 & _ & W3).
  split; [|split; [apply seg_app|now rewrite W1]]. clear -W3 Fa Sp. induction W3 as [|c d w k H W3 IH].
  - cbn [app]. destruct x as [|c x]; [discriminate|]. cbn [hd0] in Sp. cbn [skip_nonspace]. now rewrite Sp.
  - cbn in Fa. apply Bool.andb_true_iff in Fa as (Fa & Fb). cbn [app skip_nonspace].
    replace (isspace c) with false; [now apply IH|]. unfold isspace, isalpha, tolower, isupper, islower in *. destruct (_ && _) eqn:? in H; destruct (_ && _) eqn:? in H; lia.
Qed.
Lemma eol_space cr x : isspace (hd0 (eol_text cr ++ x)) = true.
Proof. destruct cr; reflexivity. Qed.
Definition ending_core (e : ending) : text := match e_comment e with Some t => 59 :: t | None => [] end ++ eol_text (e_cr e).
Lemma ending_ws e x : ending_ok e -> skip_ws (ending_text e ++ x) = ending_core e ++ x.
Proof.
  intros (B & _). unfold ending_text, ending_core. rewrite <- !app_assoc, skip_ws_app by exact B. destruct (e_comment e), (e_cr e); cbn [app eol_text]; apply skip_ws_nonblank; unfold blank; lia.
Qed.
Lemma ending_core_ok e : ending_ok e -> calm false (ending_text e) = true -> lineish (ending_core e) /\ calm true (ending_core e) = true /\ (forall x, hd0 (skip_ws (ending_core e ++ x)) <> 92) /\ forall x, is_name_char (hd0 (ending_text e ++ x)) = false.
Proof.
  intros O Cm. pose proof O as (B & Nb). split; [|split; [|split]].
  - exists (match e_comment e with Some t => 59 :: t | None => [] end), (e_cr e). split; [reflexivity|]. destruct (e_comment e); [constructor; [lia|exact Nb]|constructor].
  - unfold ending_text in Cm. apply calm_suffix in Cm. unfold ending_core. destruct (e_comment e), (e_cr e); cbn in *; auto.
  - intros x. unfold ending_core. destruct (e_comment e), (e_cr e); cbn [app eol_text]; (rewrite skip_ws_nonblank by (unfold blank; lia)); cbn; lia.
  - intros x. unfold ending_text. destruct B as [|c b Bc]; [destruct (e_comment e), (e_cr e); reflexivity|]. cbn [app hd0]. now apply blank_space.
Qed.
Lemma ending_hd e x : ending_ok e -> hd0 (skip_ws (ending_text e ++ x)) <> 92.
Proof. intros O. rewrite ending_ws by exact O. unfold ending_core. destruct (e_comment e), (e_cr e); cbn; lia. Qed.
Lemma mark_space l m x : mark_ok l m -> isspace (hd0 (ending_text (m_end m) ++ x)) = true.
Proof.
  intros (_ & _ & (B & _) & N & _). unfold ending_text. destruct (e_comment (m_end m)) as [t|].
  - assert (Nb : e_blanks (m_end m) <> []) by (apply N; discriminate). destruct B as [|c b Bc]; [congruence|]. cbn [app hd0]. now apply blank_space.
  - destruct B as [|c b Bc]; [cbn [app]; apply eol_space|]. cbn [app hd0]. now apply blank_space.
Qed.

(** ** Runs of the pass *)
Section Runs.
Variable m : nat.
Variable k : Z.
Variable T : table.
Hypothesis Hm : (20 <= m)%nat.
Hypothesis He : (enough <= m)%nat.
Hypothesis K1 : 1 <= k.
Notation R2 := (knot C (S (S m))).
(** The loop over the lines: of a pass, or of a macro. *)
Variable loop : nat -> text -> M unit.
Definition takes_lines : Prop := forall f c u s r s1, s_erroc s = false -> f_line R2 (c :: u) s = Ok (Some r) s1 ->
  loop (S f) (c :: u) s = loop f (skip_to_next_line r) (set_line (s_line s1 + 1) s1).
Hypothesis loop_line : takes_lines.
Lemma pass_dir indent v more s f q s1 : Forall blank indent -> s_erroc s = false ->
  handle_preop C (knot C m) (v ++ more) s = Ok (Some q) s1 -> s_erroc s1 = false -> hd0 (skip_ws q) <> 92 ->
  loop (S f) ((indent ++ 35 :: v) ++ more) s = loop f (skip_to_next_line q) (set_line (s_line s1 + 1) s1).
Proof.
  intros B Ne Hp Ne1 Nq.
  assert (E : f_line R2 ((indent ++ 35 :: v) ++ more) s = Ok (Some (skip_ws q)) s1).
  { change (f_line (knot C (S (S m)))) with (line_loop C (knot C (S m)) (S m)). rewrite dir_line by exact B. rewrite (bind_ok _ _ _ _ _ Hp). rewrite bind_get, Ne1. replace (hd0 (skip_ws q) =? 92) with false by lia. reflexivity. }
  assert (Tn : exists c u, (indent ++ 35 :: v) ++ more = c :: u) by (destruct indent; cbn; eauto). destruct Tn as (c & u & Tn). rewrite Tn in *.
  rewrite (loop_line f c u s _ s1 Ne E). now rewrite skip_next_ws.
Qed.
Definition leads (p more : text) (s : st) (lv : Z) (now' : table) (here' : Z) (out : list Z) (q : list pexpr) (b : list Z) : Prop :=
  forall fuel, (length p < fuel)%nat -> exists fuel' s' b0 q', (length more < fuel')%nat /\
    loop fuel p s = loop fuel' more s' /\ good k now' here' (out ++ b0) (q ++ q') s' /\ fills T (zlen out) q' b0 b /\ lv <= s_iflevel s'.
Lemma leads_nil p s lv now here out q : good k now here out q s -> lv <= s_iflevel s -> leads p p s lv now here out q [].
Proof. intros G L fuel F. exists fuel, s, [], []. rewrite !app_nil_r. split; [exact F|]. split; [reflexivity|]. split; [exact G|]. split; [apply fills_nil|exact L]. Qed.
Lemma leads_weaken p more s lv lv' now here out q b : leads p more s lv now here out q b -> lv' <= lv -> leads p more s lv' now here out q b.
Proof. intros A L fuel F. destruct (A fuel F) as (f & s' & b0 & q' & H1 & H2 & H3 & H4 & H5). exists f, s', b0, q'. split; [exact H1|]. split; [exact H2|]. split; [exact H3|]. split; [exact H4|lia]. Qed.
Lemma leads_trans p mid more s lv lv' n1 h1 now' here' out q b1 b2 : leads p mid s lv n1 h1 out q b1 ->
  (forall s1 c1 q1, good k n1 h1 (out ++ c1) (q ++ q1) s1 -> zlen c1 = zlen b1 -> lv <= s_iflevel s1 -> leads mid more s1 lv' now' here' (out ++ c1) (q ++ q1) b2) ->
  leads p more s lv' now' here' out q (b1 ++ b2).
Proof.
  intros A B fuel F. destruct (A fuel F) as (f1 & s1 & c1 & q1 & L1 & -> & G1 & F1 & V1).
  assert (Lz : zlen c1 = zlen b1) by (destruct F1 as (L & _); unfold zlen; now rewrite L).
  destruct (B s1 c1 q1 G1 Lz V1 f1 L1) as (f2 & s2 & c2 & q2 & L2 & -> & G2 & F2 & V2).
  exists f2, s2, (c1 ++ c2), (q1 ++ q2). split; [exact L2|]. split; [reflexivity|]. rewrite <- !app_assoc in G2. split; [exact G2|]. split; [|exact V2].
  apply (fills_app C D ops D_names n2 deep2); [exact F1|]. now rewrite zlen_app in F2.
Qed.
(** The rest of a line after a directive, and then the lines that follow. *)
Definition resumes (q : text) (bound : nat) (more : text) (s1 : st) (lv : Z) (now' : table) (here' : Z) (out : list Z) (qq : list pexpr) (b : list Z) : Prop :=
  hd0 (skip_ws q) <> 92 /\ (length q <= bound)%nat /\ s_erroc s1 = false /\
  forall ln, leads (skip_to_next_line q) more (set_line ln s1) lv now' here' out qq b.
Lemma leads_dir indent v x more s q s1 lv now' here' out qq b : Forall blank indent -> s_erroc s = false ->
  handle_preop C (knot C m) (v ++ x) s = Ok (Some q) s1 -> resumes q (length (v ++ x)) more s1 lv now' here' out qq b ->
  leads ((indent ++ 35 :: v) ++ x) more s lv now' here' out qq b.
Proof.
  intros B Ne Hp (Nq & Lq & Ne1 & Ld) fuel F. destruct fuel as [|f]; [lia|].
  rewrite (pass_dir indent v x s f q s1 B Ne Hp Ne1 Nq). apply Ld. pose proof (skip_next_len q). rewrite !app_length in *. cbn [length] in *. lia.
Qed.

Ltac good_tac := match goal with H : good _ _ _ _ _ _ |- good _ _ _ _ _ _ => destruct H as (GK & GA & GS & GH); split; [destruct GK; constructor; assumption|split; [destruct GA; constructor; first [assumption|reflexivity]|split; assumption]] end.
Lemma good_line now here out q s ln : good k now here out q s -> good k now here out q (set_line ln s).
Proof. intros G. good_tac. Qed.
Lemma good_level now here out q s lv : good k now here out q s -> good k now here out q (set_iflevel lv s).
Proof. intros G. good_tac. Qed.
Lemma good_parsed now here out q s : good k now here out q s -> good k now here out q (set_depth 0 (set_fwd false s)).
Proof. intros G. good_tac. Qed.
Lemma good_err now here out q s : good k now here out q s -> s_erroc s = false.
Proof. intros (K & _). exact (k_erroc _ _ _ _ _ _ K). Qed.

(** Skipping in a session of its own. *)
Lemma quiet now here out q s R words p r ln : good k now here out q s ->
  skip_until R true words p (set_sess (k + 1) s) = Ok r (set_line ln (set_sess (k + 1) s)) ->
  exists s', skip_quiet R words p s = Ok r s' /\ good k now here out q s' /\ s_iflevel s' = s_iflevel s.
Proof.
  intros G E. pose proof G as (K & A & So & H). unfold skip_quiet, start_session. rewrite !bind_assoc, bind_get, bind_assoc, bind_upd, bind_ret.
  rewrite (k_sess _ _ _ _ _ _ K). rewrite (bind_ok _ _ _ _ _ E). set (s1 := set_line ln (set_sess (k + 1) s)).
  assert (Ee : end_session (k + 1) s1 = Ok tt (set_sess (k + 1 - 1) (set_errs (s_errs s) s1))).
  { unfold end_session. rewrite !bind_get, !bind_upd. change (s_errs s1) with (s_errs s). change (s_sess s1) with (k + 1). rewrite (unlead_le k _ (errs_all _ _ (k_errs _ _ _ _ _ _ K))). replace (k + 1 =? 1) with false by lia. reflexivity. }
  rewrite (bind_ok _ _ _ _ _ Ee). unfold s1.
  eexists. split; [reflexivity|]. split; [|reflexivity]. split; [|split; [destruct A; constructor; assumption|split; assumption]].
  destruct K; constructor; try assumption. cbn. lia.
Qed.

(** The lines after a branch that was taken. *)
Lemma mark_leads l mk x : Forall (fun w => forallb isalpha w = true) l -> mark_ok l mk -> skip_to_next_line (mark_text mk ++ x) = x /\ hd0 (skip_ws (mark_text mk ++ x)) <> 92.
Proof.
  intros F M. destruct (mark_directive l mk F M) as (L & _ & E & _). split; [now apply lineish_next|]. rewrite E. cbn. lia.
Qed.
Lemma mark_split mk x : mark_text mk ++ x = (m_indent mk ++ 35 :: mark_rest mk) ++ x.
Proof. reflexivity. Qed.
Lemma mark_preop mk w o x : mark_ok [w] mk -> forallb isalpha w = true -> find_ci w preops = Some o ->
  skip_nonspace (mark_rest mk ++ x) = ending_text (m_end mk) ++ x /\ skip_ws (ending_text (m_end mk) ++ x) = ending_core (m_end mk) ++ x /\
  find_ci (seg (mark_rest mk ++ x) (skip_nonspace (mark_rest mk ++ x))) preops = Some o.
Proof.
  intros M Wa Wo. pose proof M as (B & W & O & _ & Cm). pose proof (mark_space _ _ x M) as Sp.
  assert (Fw : Forall (fun k => forallb isalpha k = true /\ find_ci k preops = Some o) [w]) by (constructor; [auto|constructor]).
  destruct (preop_word _ _ _ o W Fw Sp) as (E1 & E2 & E3). unfold mark_rest. rewrite <- app_assoc, E1, E2. split; [reflexivity|]. split; [now apply ending_ws|exact E3].
Qed.
Lemma ending_resumes e x : ending_ok e -> skip_to_next_line (ending_core e ++ x) = x.
Proof. intros O. rewrite <- ending_ws by exact O. rewrite skip_next_ws. apply lineish_next. now apply ending_line. Qed.
Lemma ending_core_len e : (length (ending_core e) <= length (ending_text e))%nat.
Proof. unfold ending_core, ending_text. rewrite !app_length. lia. Qed.
Lemma f_n_knot n : f_n (knot C n) = n.
Proof. destruct n; reflexivity. Qed.

Lemma calm_ws q x : lineish q -> calm true q = true -> exists e, skip_ws (q ++ x) = e ++ x /\ lineish e /\ calm true e = true /\ (length e <= length q)%nat.
Proof.
  intros (body & cr & -> & F). induction F as [|c body (H1 & H2) F IH]; intros Cm.
  - exists (eol_text cr). split; [destruct cr; apply skip_ws_nonblank; unfold blank; lia|]. split; [exists [], cr; split; [reflexivity|constructor]|]. split; [exact Cm|reflexivity].
  - destruct (isblank c) eqn:Bc.
    + cbn [app calm] in Cm. rewrite Bc in Cm. apply Bool.andb_true_iff in Cm as (_ & Cm). apply isblank_iff in Bc. replace ((c =? 92) || true && true) with true in Cm by (now rewrite Bool.orb_true_r).
      destruct (IH Cm) as (e & E1 & E2 & E3 & E4). exists e. split; [|cbn [length app]; split; [exact E2|split; [exact E3|lia]]].
      change (((c :: body) ++ eol_text cr) ++ x) with ([c] ++ (body ++ eol_text cr) ++ x). rewrite skip_ws_app by (constructor; [exact Bc|constructor]). exact E1.
    + exists ((c :: body) ++ eol_text cr). split; [cbn [app]; apply skip_ws_nonblank; intros Hb; apply isblank_iff in Hb; congruence|]. split; [exists (c :: body), cr; split; [reflexivity|constructor; auto]|]. split; [exact Cm|reflexivity].
Qed.
Lemma head_lineish first h : head_ok first h -> lineish (h_gap h ++ test_text (h_test h) ++ ending_text (h_end h)).
Proof. intros (_ & _ & (_ & G) & _ & Nb & E & _ & _). apply lineish_app; [now apply blanks_no_break|]. apply lineish_app; [exact Nb|now apply ending_line]. Qed.
Lemma head_preop first h o x : head_ok first h -> (forall w, In w (head_words first (h_test h)) -> forallb isalpha w = true /\ find_ci w preops = Some o) ->
  skip_nonspace (head_rest h ++ x) = h_gap h ++ test_text (h_test h) ++ ending_text (h_end h) ++ x /\
  find_ci (seg (head_rest h ++ x) (skip_nonspace (head_rest h ++ x))) preops = Some o.
Proof.
  intros (B & W & (Gn & Gb) & _) F.
  destruct (preop_word (h_word h) _ (h_gap h ++ test_text (h_test h) ++ ending_text (h_end h) ++ x) o W) as (E1 & E2 & E3).
  - apply Forall_forall. exact F.
  - destruct (h_gap h) as [|c g]; [congruence|]. inversion Gb; subst. cbn [app hd0]. now apply blank_space.
  - unfold head_rest. rewrite <- !app_assoc, E1, E2. auto.
Qed.
Lemma head_split h x : head_text h ++ x = (h_indent h ++ 35 :: head_rest h) ++ x.
Proof. reflexivity. Qed.

Lemma alt_left a now here s out q more : alt_ok a -> (length (alt_text a ++ more) + 22 <= m)%nat -> good k now here out q s -> 1 <= s_iflevel s ->
  leads (alt_text a ++ more) more s (s_iflevel s - 1) now here out q [].
Proof.
  intros Oa Lm G Lv. pose proof (good_err _ _ _ _ _ G) as Ne.
  assert (Gs : s_erroc (set_sess (k + 1) s) = false) by exact Ne.
  destruct a as [mk|mk no e|h yes no]; cbn [alt_text] in *.
  - destruct (mark_preop mk (zs "endif") P_ENDIF more Oa eq_refl eq_refl) as (E1 & E2 & E3). pose proof Oa as (B & _ & O & _ & Cm). destruct (ending_core_ok _ O Cm) as (_ & _ & Nh & _).
    rewrite mark_split. eapply (leads_dir _ _ _ _ _ (ending_core (m_end mk) ++ more) (set_iflevel (s_iflevel s - 1) s)); [exact B|exact Ne| |].
    + unfold handle_preop. rewrite E3, E1, E2. rewrite bind_get. replace (0 <? s_iflevel s) with true by lia. rewrite bind_upd. reflexivity.
    + split; [apply Nh|]. split; [pose proof (ending_core_len (m_end mk)); unfold mark_rest; rewrite !app_length; lia|]. split; [exact Ne|]. intros ln. rewrite ending_resumes by exact O. apply leads_nil; [now apply good_line, good_level|cbn; lia].
  - destruct Oa as (M & Ob & Me). rewrite <- !app_assoc in *. destruct (mark_preop mk (zs "else") P_ELSE (blocks_text no ++ mark_text e ++ more) M eq_refl eq_refl) as (E1 & E2 & E3).
    pose proof M as (B & _ & O & _ & Cm). destruct (ending_core_ok _ O Cm) as (Le & Ce & Nh & _). pose proof (ending_core_len (m_end mk)) as Lc.
    destruct (until_alt (knot C m) true (ending_core (m_end mk)) no (End e) more (set_sess (k + 1) s)) as (ln' & Eu); auto.
    { rewrite f_n_knot. cbn [alt_text]. unfold mark_text in Lm at 1. rewrite !app_length in *. cbn [length] in *. rewrite !app_length in *. lia. }
    destruct (quiet _ _ _ _ _ _ _ _ _ _ G Eu) as (s' & Eq & G' & Lv').
    rewrite mark_split. eapply (leads_dir _ _ _ _ _ (mark_text e ++ more) s'); [exact B|exact Ne| |].
    + unfold handle_preop. rewrite E3, E1, E2. rewrite bind_get. replace (s_iflevel s =? 0) with false by lia. cbn [alt_text] in Eq. rewrite (bind_ok _ _ _ _ _ Eq). reflexivity.
    + destruct (mark_leads [zs "endif"] e more) as (N1 & N2); [repeat constructor|exact Me|]. split; [exact N2|]. split; [rewrite !app_length; lia|]. split; [now apply good_err in G'|]. intros ln. rewrite N1. apply leads_nil; [now apply good_line|cbn; lia].
  - destruct Oa as (M & Ob & Oa). rewrite <- !app_assoc in *. pose proof M as (B & W & _ & _ & _ & _ & _ & Cm).
    set (X := blocks_text yes ++ alt_text no ++ more) in *.
    assert (Fw : forall w, In w (head_words false (h_test h)) -> forallb isalpha w = true /\ find_ci w preops = Some P_ELIF).
    { intros y Hy. destruct (h_test h); cbn [head_words In] in Hy; try contradiction; destruct Hy as [<-|[]]; split; reflexivity. }
    destruct (head_preop false h P_ELIF X M Fw) as (E1 & E3).
    destruct (calm_ws _ X (head_lineish _ _ M) Cm) as (e & E2 & Le & Ce & Lc). rewrite <- !app_assoc in E2.
    destruct (until_end (knot C m) true e yes no more (set_sess (k + 1) s)) as (mk & ln' & (Mk & Lk) & Eu); auto.
    { rewrite f_n_knot. rewrite head_split in Lm. unfold head_rest in Lm. fold X. rewrite !app_length in *. cbn [length] in Lm. rewrite !app_length in *. lia. }
    destruct (quiet _ _ _ _ _ _ _ _ _ _ G Eu) as (s' & Eq & G' & Lv').
    rewrite head_split. eapply (leads_dir _ _ _ _ _ (mark_text mk ++ more) s'); [exact B|exact Ne| |].
    + unfold handle_preop. rewrite E3, E1, E2. rewrite bind_get. replace (s_iflevel s =? 0) with false by lia. cbn [whenM]. rewrite bind_ret. rewrite (bind_ok _ _ _ _ _ Eq). reflexivity.
    + destruct (mark_leads [zs "endif"] mk more) as (N1 & N2); [repeat constructor|exact Mk|]. split; [exact N2|]. split; [|split; [now apply good_err in G'|]; intros ln; rewrite N1; apply leads_nil; [now apply good_line|cbn; lia]].
      unfold X. rewrite !app_length. lia.
Qed.

(** ** The lines that count *)
Notation chosen := (chosen (c_wrap C) (c_ez80 C) (key C) taken).
Notation chosen_alt := (chosen_alt (c_wrap C) (c_ez80 C) (key C) taken).
Notation output := (output (c_wrap C) (c_ez80 C) (key C) taken).
Notation sections_ok := (sections_ok (c_wrap C) (c_ez80 C) (key C) taken ops).
Notation walk := (walk C D).
Lemma walk_app l1 l2 : forall now here n1 h1, walk now here l1 = Some (n1, h1) -> walk now here (l1 ++ l2) = walk n1 h1 l2.
Proof.
  induction l1 as [|x l1 IH]; intros now here n1 h1 E; cbn [AsmLine.walk app] in *; [now injection E as <- <-|].
  destruct (after _ _ _ _ now here x) as [(n2', h2)|]; [|discriminate]. now apply IH.
Qed.
Lemma reached_walk l : forall now here, reached (c_wrap C) (c_ez80 C) (key C) taken now here l = walk now here l.
Proof. induction l as [|x l IH]; intros now here; [reflexivity|]. cbn [reached AsmLine.walk]. destruct (after _ _ _ _ now here x) as [(n1, h1)|]; [apply IH|reflexivity]. Qed.
Lemma and_then_some x f p r : and_then x f = Some (p, r) -> exists p1 n1 h1 p2, x = Some (p1, (n1, h1)) /\ f n1 h1 = Some (p2, r) /\ p = p1 ++ p2.
Proof.
  destruct x as [(p1, (n1, h1))|]; [|discriminate]. cbn. destruct (f n1 h1) as [(p2, r2)|] eqn:E; [|discriminate]. intros H. injection H as <- <-. eauto 8.
Qed.
Lemma sections_app p1 p2 : sections (p1 ++ p2) = sections p1 ++ sections p2.
Proof. unfold sections. apply flat_map_app. Qed.
Lemma chosen_walk :
  (forall b now here p r, chosen now here b = Some (p, r) -> walk now here (sections p) = Some r) /\
  (forall a now here p r, chosen_alt now here a = Some (p, r) -> walk now here (sections p) = Some r).
Proof.
  assert (J : forall now here x f p r, (forall p1 r1, x = Some (p1, r1) -> walk now here (sections p1) = Some r1) ->
     (forall n1 h1 p2 r2, f n1 h1 = Some (p2, r2) -> walk n1 h1 (sections p2) = Some r2) -> and_then x f = Some (p, r) -> walk now here (sections p) = Some r).
  { intros now here x f p r Hx Hf E. apply and_then_some in E as (p1 & n1 & h1 & p2 & E1 & E2 & ->). rewrite sections_app, (walk_app _ _ _ _ n1 h1); eauto. }
  apply blocks_alt_ind.
  - intros now here p r E. injection E as <- <-. reflexivity.
  - intros l b IH now here p r E. cbn [CondSpec.chosen] in E. rewrite reached_walk in E. destruct (walk now here (sections [l])) as [r1|] eqn:W; [|discriminate].
    revert E. apply J; [|exact IH]. intros p1 r1' Q. injection Q as <- <-. exact W.
  - discriminate.
  - intros h yes IHy no IHn b IH now here p r E. cbn [CondSpec.chosen] in E. destruct (holds now here (h_test h)) as [[|]|]; [| |discriminate]; revert E; apply J; auto.
  - intros mk now here p r E. injection E as <- <-. reflexivity.
  - intros mk no IH e now here p r E. exact (IH _ _ _ _ E).
  - intros h yes IHy no IHn now here p r E. cbn [CondSpec.chosen_alt] in E. destruct (holds now here (h_test h)) as [[|]|]; [| |discriminate]; auto.
Qed.
(** What is asked of the lines that count. *)
Definition fits (now : table) (here : Z) (out : list Z) (p : list line) (now' : table) (bts : list Z) : Prop :=
  sections_ok now here (sections p) /\ output T now here (sections p) = Some bts /\ ext C now' T /\ zlen out + zlen bts <= 8000000.
Lemma fits_app now here out p1 p2 n1 h1 now' here' bts : walk now here (sections p1) = Some (n1, h1) -> walk n1 h1 (sections p2) = Some (now', here') ->
  fits now here out (p1 ++ p2) now' bts ->
  exists b1 b2, bts = b1 ++ b2 /\ fits now here out p1 n1 b1 /\ forall c1, zlen c1 = zlen b1 -> fits n1 h1 (out ++ c1) p2 now' b2.
Proof.
  intros W1 W2 (O & Ob & X & Rm). rewrite sections_app in O, Ob. destruct (walk_output _ _ _ _ _ _ _ _ _ _ W1 Ob) as (b1 & b2 & B1 & B2 & ->). destruct (walk_ok _ _ _ _ _ _ _ _ _ W1 O) as (O1 & O2).
  rewrite zlen_app in Rm. pose proof (zlen_nonneg b1). pose proof (zlen_nonneg b2). pose proof (zlen_nonneg out).
  exists b1, b2. split; [reflexivity|]. split.
  - split; [exact O1|]. split; [exact B1|]. split; [|lia]. eapply ext_trans; [eapply walk_ext; [exact lawful|exact W2]|exact X].
  - intros c1 Lc. split; [exact O2|]. split; [exact B2|]. split; [exact X|]. rewrite zlen_app. lia.
Qed.

(** One line of code. *)
Lemma line_leads_gen (lv : Level) l more now here s out q now' here' bts : @calls_run lv dr Pm fr Cs Ca C D ops n2 enough -> lv (s_iflevel s) ->
  line_ok l -> walk now here (sections [l]) = Some (now', here') -> fits now here out [l] now' bts ->
  (length (line_text l) <= m)%nat -> good k now here out q s ->
  forall fuel, (length (line_text l ++ more) < fuel)%nat -> exists fuel' s' b0 q', (length more < fuel')%nat /\
    loop fuel (line_text l ++ more) s = loop fuel' more s' /\ good k now' here' (out ++ b0) (q ++ q') s' /\ fills T (zlen out) q' b0 bts /\ lv (s_iflevel s').
Proof.
  intros Rc Ll Lo W (O & Ob & X & Rm) Lm G fuel Fu. destruct fuel as [|fuel]; [lia|].
  unfold sections in W, O, Ob. cbn [flat_map] in W, O, Ob. rewrite app_nil_r in W, O, Ob.
  assert (Ln : (S (length (l_more l)) <= length (line_text l))%nat).
  { unfold line_text. rewrite !app_length.
    assert (L : (length (l_more l) <= length (flat_map (fun x => 92%Z :: section_text x) (l_more l)))%nat).
    { clear. induction (l_more l) as [|x xs IH]; [cbn; lia|]. cbn [flat_map length]. rewrite app_length. cbn [length]. lia. }
    destruct (l_cr l); cbn [length]; lia. }
  destruct (@line_run lv dr Pm fr Cs Ca C D ops normal no_counter D_names n2 deep2 known_table enough lawful Rc m k T l more (S m) now here s out q bts now' here') as (s1 & c1 & q1 & P1 & G1 & F1); auto; [lia|now apply good_at|].
  assert (Lv : lv (s_iflevel s1)) by (destruct G1 as (_ & A & _); exact (a_level _ _ _ _ A)). apply good_any in G1.
  exists fuel, (set_line (s_line s1 + 1) s1), c1, q1. split; [rewrite app_length in Fu; lia|]. split; [|split; [|split; [exact F1|exact Lv]]].
  - assert (Tn : exists c u, line_text l ++ more = c :: u) by (destruct (line_text l) as [|c u]; [cbn in Ln; lia|cbn; eauto]). destruct Tn as (c & u & Tn). rewrite Tn in *.
    rewrite (loop_line fuel c u s _ s1 (good_err _ _ _ _ _ G) P1). now rewrite (tail_next C D D_names n2 deep2 l _ Lo).
  - destruct G1 as (K & A & So & H). split; [destruct K; constructor; assumption|]. split; [destruct A; constructor; first [assumption|reflexivity]|split; assumption].
Qed.

Lemma line_leads l more now here s out q now' here' bts : line_ok l -> walk now here (sections [l]) = Some (now', here') -> fits now here out [l] now' bts ->
  (length (line_text l) <= m)%nat -> good k now here out q s -> 0 <= s_iflevel s -> leads (line_text l ++ more) more s (s_iflevel s) now' here' out q bts.
Proof.
  intros Lo W F L G Lz fuel Fu. destruct (line_leads_gen (Z.le (s_iflevel s)) l more now here s out q now' here' bts (run_calls _ Lz) (Z.le_refl _) Lo W F L G fuel Fu) as (f & s' & b0 & q' & H).
  exists f, s', b0, q'. exact H.
Qed.
(** Lines without calls leave the nesting as it is. *)
Lemma lines_lead p : (forall lv : Level, @calls_run lv dr Pm fr Cs Ca C D ops n2 enough) ->
  forall more now here s out q now' here' bts, Forall line_ok p -> walk now here (sections p) = Some (now', here') -> fits now here out p now' bts ->
  (length (program_text p) <= m)%nat -> good k now here out q s ->
  forall fuel, (length (program_text p ++ more) < fuel)%nat -> exists fuel' s' b0 q', (length more < fuel')%nat /\
    loop fuel (program_text p ++ more) s = loop fuel' more s' /\ good k now' here' (out ++ b0) (q ++ q') s' /\ s_iflevel s' = s_iflevel s.
Proof.
  intros Rc. induction p as [|l p IH]; intros more now here s out q now' here' bts Lo W Ft Lm G fuel Fu.
  - injection W as <- <-. exists fuel, s, [], []. rewrite !app_nil_r. auto.
  - inversion Lo; subst. change (l :: p) with ([l] ++ p) in W, Ft. rewrite sections_app in W. destruct (walk now here (sections [l])) as [(n1, h1)|] eqn:W1.
    2:{ exfalso. clear -W W1. revert now here W W1. induction (sections [l]) as [|x xs IHx]; intros now here; cbn [app AsmLine.walk]; [discriminate|]. destruct (after _ _ _ _ now here x) as [(a, b)|]; [apply IHx|discriminate]. }
    rewrite (walk_app _ _ _ _ _ _ W1) in W. destruct (fits_app _ _ _ _ _ _ _ _ _ _ W1 W Ft) as (b1 & b2 & -> & F1 & F2).
    cbn [program_text flat_map] in *. fold (program_text p) in *. rewrite app_length in Lm. rewrite <- app_assoc in *.
    destruct (line_leads_gen (eq (s_iflevel s)) l (program_text p ++ more) now here s out q n1 h1 b1 (Rc _) eq_refl) with (fuel := fuel) as (f1 & s1 & c1 & q1 & L1 & E1 & G1 & Fi & V1); auto; [lia|].
    assert (Lz : zlen c1 = zlen b1) by (destruct Fi as (L & _); unfold zlen; now rewrite L).
    destruct (IH more n1 h1 s1 (out ++ c1) (q ++ q1) now' here' b2) with (fuel := f1) as (f2 & s2 & c2 & q2 & L2 & E2 & G2 & V2); auto; [lia|].
    exists f2, s2, (c1 ++ c2), (q1 ++ q2). rewrite <- !app_assoc in G2. split; [exact L2|]. split; [congruence|]. split; [exact G2|congruence].
Qed.

(** A branch. *)
Definition run_blocks (b : blocks) : Prop := forall inside now here s out q p now' here' bts more,
  blocks_ok inside b -> chosen now here b = Some (p, (now', here')) -> fits now here out p now' bts -> (length (blocks_text b ++ more) + 22 <= m)%nat ->
  good k now here out q s -> 0 <= s_iflevel s -> leads (blocks_text b ++ more) more s (s_iflevel s) now' here' out q bts.
Definition after_alt (R : fns) (r : text) : M text :=
  if line_has_word r (zs "#else") then ret (back1 r (next_code_line r))
  else if line_has_word r (zs "#elif") then f_if R (skipn 5 (skip_ws r)) else ret r.
Definition run_alt (a : alt) : Prop := forall m' now here s out q p now' here' bts more,
  alt_ok a -> chosen_alt now here a = Some (p, (now', here')) -> fits now here out p now' bts ->
  (length (alt_text a ++ more) + 22 <= m')%nat -> (length (alt_text a ++ more) + 22 <= m)%nat -> good k now here out q s -> 1 <= s_iflevel s ->
  exists qq s1, after_alt (knot C m') (alt_text a ++ more) s = Ok qq s1 /\
    resumes qq (length (alt_text a ++ more)) more s1 (s_iflevel s - 1) now' here' out q bts.
Lemma branch m' e (cond : bool) yes no now here s out q p now' here' bts more : run_blocks yes -> run_alt no ->
  lineish e -> calm true e = true -> hd0 (skip_ws (e ++ blocks_text yes ++ alt_text no ++ more)) <> 92 -> blocks_ok true yes -> alt_ok no ->
  (if cond then chosen now here yes else chosen_alt now here no) = Some (p, (now', here')) -> fits now here out p now' bts ->
  (length (e ++ blocks_text yes ++ alt_text no ++ more) + 22 <= m')%nat -> (length (e ++ blocks_text yes ++ alt_text no ++ more) + 22 <= m)%nat ->
  good k now here out q s -> 1 <= s_iflevel s ->
  exists qq s1, do_if (knot C m') (e ++ blocks_text yes ++ alt_text no ++ more) cond s = Ok qq s1 /\
    resumes qq (length (e ++ blocks_text yes ++ alt_text no ++ more)) more s1 (s_iflevel s - 1) now' here' out q bts.
Proof.
  intros Iy In Le Ce Nh Oy On Ch Ft Lm' Lm G Lv. pose proof (good_err _ _ _ _ _ G) as Ne. unfold do_if.
  destruct (until_end (knot C m') false e yes no more s) as (mk & ln' & _ & Eu); auto; [rewrite f_n_knot; lia|].
  rewrite (bind_ok _ _ _ _ _ Eu). cbn [state_after]. destruct cond.
  - eexists _, _. split; [reflexivity|]. split; [exact Nh|]. split; [reflexivity|]. split; [exact Ne|]. intros ln. rewrite (lineish_next _ _ Le).
    rewrite <- (app_nil_r bts). rewrite !app_length in Lm. eapply leads_trans.
    + eapply (Iy true); eauto; [rewrite !app_length; lia|now apply good_line|cbn; lia].
    + intros s1 c1 q1 G1 Lc Lv1. cbn [s_iflevel set_line] in Lv1. intros fuel Fu. destruct (alt_left no now' here' s1 (out ++ c1) (q ++ q1) more On) with (fuel := fuel) as (f2 & s2 & b0 & q2 & H1 & H2 & H3 & H4 & H5); auto; [rewrite app_length; lia|lia|].
      exists f2, s2, b0, q2. split; [exact H1|]. split; [exact H2|]. split; [exact H3|]. split; [exact H4|lia].
  - destruct (until_alt (knot C m') true e yes no more s) as (ln2 & Ea); auto; [rewrite f_n_knot; lia|]. rewrite (bind_ok _ _ _ _ _ Ea). cbn [state_after].
    rewrite !app_length in Lm, Lm'. destruct (In m' now here (set_line ln2 s) out q p now' here' bts more On Ch Ft) as (qq & s1 & E1 & (N1 & N2 & N3 & N4)); [rewrite app_length; lia|rewrite app_length; lia|now apply good_line|exact Lv|].
    exists qq, s1. split; [exact E1|]. split; [exact N1|]. split; [rewrite !app_length in *; lia|]. split; [exact N3|exact N4].
Qed.

Lemma alt_nonempty a more : alt_text a ++ more <> [].
Proof. destruct a as [mk|mk no e|h yes no]; cbn [alt_text]; unfold mark_text, head_text; rewrite <- !app_assoc; intros E; apply app_eq_nil in E as (_ & E); discriminate. Qed.
Lemma blocks_alt_nonempty b a more : blocks_text b ++ alt_text a ++ more <> [].
Proof. intros E. apply app_eq_nil in E as (_ & E). now apply alt_nonempty in E. Qed.
Lemma eol_line cr : lineish (eol_text cr) /\ calm true (eol_text cr) = true /\ forall x, hd0 (skip_ws (eol_text cr ++ x)) <> 92.
Proof. split; [exists [], cr; split; [reflexivity|constructor]|]. split; [destruct cr; reflexivity|]. intros x. destruct cr; cbn; lia. Qed.
(** A test by value, from the text of the expression on. *)
Lemma value_branch m' gap w e yes no now here s out q c p now' here' bts more : run_blocks yes -> run_alt no ->
  Forall blank gap -> known_ok (key C) taken w -> ending_ok e -> match e_comment e with Some t => exists u c, t = u ++ [c] /\ ~ line_ender c | None => True end ->
  calm true (gap ++ wr w ++ ending_text e) = true -> blocks_ok true yes -> alt_ok no -> holds now here (Expr w) = Some c ->
  (if c then chosen now here yes else chosen_alt now here no) = Some (p, (now', here')) -> fits now here out p now' bts ->
  (length (ending_text e ++ blocks_text yes ++ alt_text no ++ more) + 22 <= m')%nat -> (length (ending_text e ++ blocks_text yes ++ alt_text no ++ more) + 22 <= m)%nat ->
  good k now here out q s -> 1 <= s_iflevel s ->
  exists qq s1, handle_preop_if (knot C m') (gap ++ wr w ++ ending_text e ++ blocks_text yes ++ alt_text no ++ more) s = Ok qq s1 /\
    resumes qq (length (ending_text e ++ blocks_text yes ++ alt_text no ++ more)) more s1 (s_iflevel s - 1) now' here' out q bts.
Proof.
  intros Iy In Bg Kw Oe Ce Cm Oy On Hc Ch Ft Lm' Lm G Lv. pose proof G as (K & A & _). unfold CondSpec.holds in Hc. destruct (val here now (w_expr w)) as [v|] eqn:V; [|discriminate]. injection Hc as <-.
  rewrite (if_value m' k now s gap w e _ v); auto; [|lia|now rewrite (a_pc _ _ _ _ A)|apply blocks_alt_nonempty].
  assert (Ll : (length (eol_text (e_cr e)) <= length (ending_text e))%nat) by (unfold ending_text; rewrite !app_length; lia).
  destruct (eol_line (e_cr e)) as (L1 & L2 & L3). rewrite !app_length in Lm, Lm'.
  destruct (branch m' (eol_text (e_cr e)) (negb (v =? 0)) yes no now here (set_depth 0 (set_fwd false s)) out q p now' here' bts more) as (qq & s1 & E1 & (N1 & N2 & N3)); auto; [rewrite !app_length; lia|rewrite !app_length; lia|now apply good_parsed|].
  exists qq, s1. split; [exact E1|]. split; [exact N1|]. split; [rewrite !app_length in *; lia|exact N3].
Qed.
(** A test for a name, from the name on. *)
Lemma name_branch m' n e yes no now here s out q (w : bool) p now' here' bts more : run_blocks yes -> run_alt no ->
  name_ok n -> eqbl (key C n) (zs "__LINE") = false -> eqbl (key C n) (zs "__FILE") = false -> ending_ok e -> calm false (ending_text e) = true ->
  blocks_ok true yes -> alt_ok no ->
  (if Bool.eqb (known n) w then chosen now here yes else chosen_alt now here no) = Some (p, (now', here')) -> fits now here out p now' bts ->
  (length (ending_text e ++ blocks_text yes ++ alt_text no ++ more) + 22 <= m')%nat -> (length (ending_text e ++ blocks_text yes ++ alt_text no ++ more) + 22 <= m)%nat ->
  good k now here out q s -> 0 <= s_iflevel s ->
  exists qq s1, preop_ifdef C (knot C m') w (n ++ ending_text e ++ blocks_text yes ++ alt_text no ++ more) s = Ok qq s1 /\
    resumes qq (length (ending_text e ++ blocks_text yes ++ alt_text no ++ more)) more s1 (s_iflevel s) now' here' out q bts.
Proof.
  intros Iy In On_ N1 N2 Oe Ce Oy On Ch Ft Lm' Lm G Lv. destruct (ending_core_ok e Oe Ce) as (_ & _ & _ & Nn).
  set (x := blocks_text yes ++ alt_text no ++ more) in *. destruct On_ as (_ & (c & t & En & Ns) & Nc).
  assert (E1 : is_eol (n ++ ending_text e ++ x) = false).
  { rewrite En. cbn [app]. apply is_eol_not. unfold name_start, line_ender in *. lia. }
  unfold preop_ifdef. rewrite E1, bind_get, bind_upd. rewrite (skip_name_app n _ Nc (Nn x)), seg_app.
  set (s1 := set_iflevel (s_iflevel s + 1) s).
  pose proof G as (K & _).
  assert (Eh : (r <- search_defines C n true ;;
          have <- match r with
            | None => ret false
            | Some r => d <- get_define r ;; ret (match d_contents d with Some _ => true | None => false end)
            end ;; do_if (knot C m') (ending_text e ++ x) (Bool.eqb have w)) s1 = do_if (knot C m') (ending_text e ++ x) (Bool.eqb (known n) w) s1).
  { assert (Es : search_defines C n true s1 = Ok (match find_arg (key C n) frame with Some r => Some r | None => match tfind (key C n) D with Some _ => Some (RG (key C n)) | None => None end end) s1).
    { unfold search_defines. rewrite !bind_get. change (s_args s1) with (s_args s). change (s_defines s1) with (s_defines s). rewrite (k_args _ _ _ _ _ _ K), (k_defines _ _ _ _ _ _ K).
      rewrite N1, N2, bind_ret. destruct (find_arg (key C n) frame); [reflexivity|]. destruct (tfind (key C n) D); reflexivity. }
    rewrite (bind_ok _ _ _ _ _ Es). unfold CondSpec.known_name. rewrite taken_find. pose proof (k_frame _ _ _ _ _ _ K n) as Fr.
    destruct (find_arg (key C n) frame) as [r|].
    - destruct Fr as ((v & -> & d & Ed & _ & Dc & _) & _). rewrite Bool.orb_true_r.
      assert (Eg : get_define r s1 = Ok d s1). { unfold get_define. replace (lookup_ref s1 r) with (Some d); [reflexivity|]. rewrite <- Ed. destruct r; [discriminate|]. cbn [lookup_ref]. change (s_args s1) with (s_args s). now rewrite (k_args _ _ _ _ _ _ K). }
      rewrite bind_assoc, (bind_ok _ _ _ _ _ Eg), bind_ret. now rewrite Dc.
    - rewrite Fr. replace (isSome (tfind (key C n) D) || isSome (AsmSpec.assoc (key C) consts n)) with (isSome (tfind (key C n) D)).
      2:{ destruct (AsmSpec.assoc (key C) consts n) as [v|] eqn:Ec; [|now rewrite Bool.orb_false_r]. destruct (k_consts _ _ _ _ _ _ K n v Ec) as (j & _ & Ci). destruct Ci as [? ? ? ? ? ? ? ? ? _ Et]. now rewrite Et. }
      destruct (tfind (key C n) D) as [d|] eqn:Ed; [|reflexivity]. cbn [isSome].
      assert (Eg : get_define (RG (key C n)) s1 = Ok d s1). { unfold get_define. cbn [lookup_ref]. change (s_defines s1) with (s_defines s). now rewrite (k_defines _ _ _ _ _ _ K), Ed. }
      rewrite bind_assoc, (bind_ok _ _ _ _ _ Eg), bind_ret. pose proof (D_full _ _ Ed) as Df. destruct (d_contents d); [reflexivity|congruence]. }
  rewrite Eh.
  destruct (branch m' (ending_text e) (Bool.eqb (known n) w) yes no now here s1 out q p now' here' bts more) as (qq & s2 & E2 & R); auto.
  - now apply ending_line.
  - now apply ending_calm.
  - now apply ending_hd.
  - now apply good_level.
  - cbn. lia.
  - exists qq, s2. split; [exact E2|]. replace (s_iflevel s) with (s_iflevel s1 - 1) by (cbn; lia). exact R.
Qed.

Lemma trim w : known_ok (key C) taken w -> exists w', known_ok (key C) taken w' /\ w_expr w' = w_expr w /\ (forall gap x, Forall blank gap -> skip_ws (gap ++ wr w ++ x) = wr w' ++ x) /\
  (forall gap x, Forall blank gap -> calm true (gap ++ wr w ++ x) = true -> calm true (wr w' ++ x) = true).
Proof.
  intros ((B1 & Wr & B2 & N & L) & F). exists (mkwritten [] (w_expr w) (w_text w) (w_after w)).
  split; [split; [split; [constructor|auto]|exact F]|]. split; [reflexivity|].
  assert (E : forall gap x, gap ++ wr w ++ x = (gap ++ w_before w) ++ w_text w ++ w_after w ++ x) by (intros; unfold wr; now rewrite <- !app_assoc).
  assert (G : forall gap, Forall blank gap -> Forall blank (gap ++ w_before w)) by (intros; apply Forall_app; auto).
  split; intros gap x Hg; rewrite E.
  - rewrite skip_ws_app by auto. destruct (proj2 expression_shape _ _ Wr) as (_ & Bg & _). apply begins_head in Bg as (c & t & Et & Nb). unfold wr. cbn [w_before w_text w_after app]. rewrite <- app_assoc, Et. cbn [app]. now apply skip_ws_nonblank.
  - intros Cm. unfold wr. cbn [w_before w_text w_after app]. rewrite <- app_assoc. eapply calm_blanks; [|reflexivity|exact Cm]. auto.
Qed.
Lemma head_leads h yes no now here s out q c p now' here' bts more : run_blocks yes -> run_alt no -> head_ok true h -> blocks_ok true yes -> alt_ok no ->
  holds now here (h_test h) = Some c -> (if c then chosen now here yes else chosen_alt now here no) = Some (p, (now', here')) -> fits now here out p now' bts ->
  (length (head_text h ++ blocks_text yes ++ alt_text no ++ more) + 22 <= m)%nat -> good k now here out q s -> 0 <= s_iflevel s ->
  leads (head_text h ++ blocks_text yes ++ alt_text no ++ more) more s (s_iflevel s) now' here' out q bts.
Proof.
  intros Iy Ia Oh Oy On Hc Ch Ft Lm G Lv. pose proof Oh as (B & W & (_ & Gb) & To & Nb & Oe & Ce & Cm). pose proof (good_err _ _ _ _ _ G) as Ne.
  set (x := blocks_text yes ++ alt_text no ++ more) in *. rewrite head_split in Lm |- *. unfold head_rest in Lm. rewrite !app_length in Lm. cbn [length] in Lm. rewrite !app_length in Lm.
  assert (Nm : forall (w : bool) n, h_test h = (if w then Defined n else Undefined n) -> leads ((h_indent h ++ 35 :: head_rest h) ++ x) more s (s_iflevel s) now' here' out q bts).
  { intros w n Et.
    assert (Fw : forall y, In y (head_words true (h_test h)) -> forallb isalpha y = true /\ find_ci y preops = Some (if w then P_IFDEF else P_IFNDEF)).
    { intros y Hy. rewrite Et in Hy. destruct w; cbn [head_words In] in Hy; destruct Hy as [<-|[]]; split; reflexivity. }
    destruct (head_preop true h _ x Oh Fw) as (E1 & E3).
    assert (To' : name_ok n /\ eqbl (key C n) (zs "__LINE") = false /\ eqbl (key C n) (zs "__FILE") = false) by (rewrite Et in To; destruct w; exact To). destruct To' as (T1 & T2 & T3).
    assert (Tt : test_text (h_test h) = n) by (rewrite Et; destruct w; reflexivity). rewrite Tt in *.
    assert (Hc' : c = Bool.eqb (known n) w) by (rewrite Et in Hc; unfold CondSpec.holds in Hc; destruct w; injection Hc as <-; destruct (known n); reflexivity). subst c.
    destruct (name_branch m n (h_end h) yes no now here s out q w p now' here' bts more) as (qq & s1 & E4 & Rs); auto.
    { apply calm_suffix in Cm. now apply calm_suffix in Cm. }
    { fold x. rewrite app_length. lia. } { fold x. rewrite app_length. lia. }
    eapply (leads_dir _ _ _ _ _ qq s1); [exact B|exact Ne| |].
    - unfold handle_preop. rewrite E3, E1. rewrite skip_ws_app by exact Gb.
      assert (Es : skip_ws (n ++ ending_text (h_end h) ++ x) = n ++ ending_text (h_end h) ++ x).
      { destruct T1 as (_ & (c & t & -> & Ns) & _). cbn [app]. apply skip_ws_nonblank. unfold name_start, blank in *. lia. }
      rewrite Es.
      fold x in E4. destruct w; (rewrite (bind_ok _ _ _ _ _ E4); reflexivity).
    - destruct Rs as (N1 & N2 & N3). fold x in N2. split; [exact N1|]. split; [unfold head_rest; rewrite !app_length in *; lia|exact N3]. }
  destruct (h_test h) as [w|n|n] eqn:Et; [|apply (Nm true n eq_refl)|apply (Nm false n eq_refl)]. clear Nm.
  assert (Fw : forall y, In y (head_words true (h_test h)) -> forallb isalpha y = true /\ find_ci y preops = Some P_IF).
  { intros y Hy. rewrite Et in Hy. cbn [head_words In] in Hy; destruct Hy as [<-|[]]; split; reflexivity. }
  destruct (head_preop true h _ x Oh Fw) as (E1 & E3). rewrite Et in E1. cbn [test_text test_ok] in *. destruct (trim w To) as (w' & Kw & Ew & Sk & Ck).
  destruct (value_branch m [] w' (h_end h) yes no now here (set_iflevel (s_iflevel s + 1) s) out q c p now' here' bts more) as (qq & s1 & E4 & Rs); auto.
  { apply (Ck (h_gap h)); assumption. }
  { unfold CondSpec.holds in *. now rewrite Ew. }
  { fold x. rewrite app_length. lia. } { fold x. rewrite app_length. lia. }
  { now apply good_level. }
  { cbn. lia. }
  eapply (leads_dir _ _ _ _ _ qq s1); [exact B|exact Ne| |].
  - unfold handle_preop. rewrite E3, E1. rewrite Sk by exact Gb. rewrite bind_get, bind_upd. fold x in E4. cbn [app] in E4. rewrite (bind_ok _ _ _ _ _ E4). reflexivity.
  - destruct Rs as (N1 & N2 & N3 & N4). fold x in N2. split; [exact N1|]. split; [unfold head_rest; rewrite !app_length in *; lia|]. split; [exact N3|]. intros ln. specialize (N4 ln). cbn [s_iflevel set_iflevel] in N4. now replace (s_iflevel s + 1 - 1) with (s_iflevel s) in N4 by lia.
Qed.

Lemma back_end a more : lineish a -> back1 (a ++ more) more = 10 :: more.
Proof.
  intros L. apply lineish_closed in L as (u & ->). unfold back1. rewrite <- app_assoc. cbn [app]. rewrite app_length. cbn [length].
  replace (length u + S (length more) - length more - 1)%nat with (length u) by lia. rewrite skipn_app, skipn_all, Nat.sub_diag. reflexivity.
Qed.
Lemma word_letters w l : word_is w l = true -> Forall (fun k => forallb isalpha k = true) l -> Forall inline w /\ exists k, In k l /\ length w = length k.
Proof.
  intros W F. unfold word_is in W. apply existsb_exists in W as (y & I & E). rewrite Forall_forall in F. specialize (F y I). destruct (word_same w y E) as (_ & W2 & W3). split; [|eauto].
  clear - F W3. induction W3 as [|c d w k H W3 IH]; constructor.
  - cbn in F. apply Bool.andb_true_iff in F as (F & _). unfold inline, line_ender, isalpha, tolower, isupper, islower in *. destruct (_ && _) eqn:? in H; destruct (_ && _) eqn:? in H; lia.
  - cbn in F. apply Bool.andb_true_iff in F as (_ & F). auto.
Qed.
Theorem run_all : (forall b, run_blocks b) /\ (forall a, run_alt a).
Proof.
  apply blocks_alt_ind.
  - intros inside now here s out q p now' here' bts more _ Ch (_ & Ob & _) _ G Lv. injection Ch as <- <- <-. cbn in Ob. injection Ob as <-. cbn [blocks_text app]. apply leads_nil; [exact G|lia].
  - intros l b IH inside now here s out q p now' here' bts more (Lo & _ & Ob) Ch Ft Lm G Lv. cbn [CondSpec.chosen] in Ch. rewrite reached_walk in Ch.
    destruct (walk now here (sections [l])) as [(n1, h1)|] eqn:W; [|discriminate]. apply and_then_some in Ch as (p1 & n1' & h1' & p2 & E1 & E2 & ->). injection E1 as <- <- <-.
    pose proof (proj1 chosen_walk _ _ _ _ _ E2) as W2. destruct (fits_app _ _ _ _ _ _ _ _ _ _ W W2 Ft) as (b1 & b2 & -> & F1 & F2).
    cbn [blocks_text] in *. rewrite <- app_assoc in *. rewrite app_length in Lm. eapply leads_trans.
    + eapply line_leads; eauto. lia.
    + intros s1 c1 q1 G1 Lc Lv1. eapply leads_weaken; [eapply (IH inside); eauto; lia|lia].
  - intros t cr b IH inside now here s out q p now' here' bts more _ Ch. discriminate.
  - intros h yes IHy no IHn b IH inside now here s out q p now' here' bts more (Oh & Oy & On & Ob) Ch Ft Lm G Lv. cbn [CondSpec.chosen] in Ch.
    destruct (holds now here (h_test h)) as [c|] eqn:Hc; [|discriminate].
    assert (Ch' : and_then (if c then chosen now here yes else chosen_alt now here no) (fun now here => chosen now here b) = Some (p, (now', here'))) by (destruct c; exact Ch). clear Ch.
    apply and_then_some in Ch' as (p1 & n1 & h1 & p2 & E1 & E2 & ->).
    assert (W : walk now here (sections p1) = Some (n1, h1)) by (destruct c; [now apply (proj1 chosen_walk) in E1|now apply (proj2 chosen_walk) in E1]).
    pose proof (proj1 chosen_walk _ _ _ _ _ E2) as W2. destruct (fits_app _ _ _ _ _ _ _ _ _ _ W W2 Ft) as (b1 & b2 & -> & F1 & F2).
    cbn [blocks_text] in *. rewrite <- !app_assoc in *. eapply leads_trans.
    + eapply head_leads; eauto.
    + intros s1 c1 q1 G1 Lc Lv1. rewrite !app_length in Lm. eapply leads_weaken; [eapply (IH inside); eauto; [rewrite app_length|]; lia|lia].
  - intros mk m' now here s out q p now' here' bts more Oa Ch (_ & Ob & _) _ _ G Lv. injection Ch as <- <- <-. cbn in Ob. injection Ob as <-. cbn [CondSpec.alt_ok alt_text] in *.
    destruct (mark_endif _ Oa) as (Dm & _ & _ & S3 & S4). exists (mark_text mk ++ more), s. split.
    + unfold after_alt. rewrite !(directive_word _ _ _ _ Dm) by (simpl; auto). now rewrite S3, S4.
    + destruct (mark_leads [zs "endif"] mk more) as (N1 & N2); [repeat constructor|exact Oa|]. split; [exact N2|]. split; [reflexivity|]. split; [now apply good_err in G|]. intros ln. rewrite N1. apply leads_nil; [now apply good_line|cbn; lia].
  - intros mk no IH e m' now here s out q p now' here' bts more (Om & Ob & Oe) Ch Ft Lm' Lm G Lv. cbn [alt_text CondSpec.chosen_alt] in *. rewrite <- !app_assoc in *.
    set (x := blocks_text no ++ mark_text e ++ more) in *. destruct (mark_else _ Om) as (Dm & _ & _ & S3 & S4). exists (10 :: x), s.
    pose proof Om as (Bi & Wi & Oi & _). split.
    + unfold after_alt. rewrite !(directive_word _ _ _ _ Dm) by (simpl; auto). rewrite S3. unfold ret. f_equal.
      assert (En : next_code_line (mark_text mk ++ x) = x).
      { destruct (word_letters _ _ Wi) as (Wl & _); [repeat constructor|]. unfold mark_text. rewrite <- app_assoc. change ((35 :: m_word mk ++ ending_text (m_end mk)) ++ x) with (35 :: (m_word mk ++ ending_text (m_end mk)) ++ x). rewrite <- app_assoc. apply (next_after (m_indent mk) (35 :: m_word mk) [] (m_end mk) x); auto; [|exists 35, (m_word mk); split; [reflexivity|]; unfold blank; lia].
        apply flat_chars. constructor; [unfold inline, line_ender; lia|exact Wl]. }
      rewrite En. apply back_end. apply Dm.
    + split; [cbn; lia|]. split; [rewrite app_length; unfold mark_text; rewrite app_length; cbn; lia|]. split; [now apply good_err in G|]. intros ln. change (skip_to_next_line (10 :: x)) with x. unfold x.
      unfold x in Lm. rewrite !app_length in Lm. rewrite <- (app_nil_r bts). eapply leads_trans.
      * eapply (IH true); eauto; [rewrite !app_length; lia|now apply good_line|cbn; lia].
      * intros s1 c1 q1 G1 Lc Lv1. cbn [s_iflevel set_line] in Lv1. eapply leads_weaken; [apply (alt_left (End e)); [exact Oe|cbn [alt_text]; rewrite app_length; lia|exact G1|lia]|lia].
  - intros h yes IHy no IHn m' now here s out q p now' here' bts more (Oh & Oy & On) Ch Ft Lm' Lm G Lv. cbn [alt_text CondSpec.chosen_alt] in *. rewrite <- !app_assoc in *.
    destruct (holds now here (h_test h)) as [c|] eqn:Hc; [|discriminate].
    assert (Ch' : (if c then chosen now here yes else chosen_alt now here no) = Some (p, (now', here'))) by (destruct c; exact Ch). clear Ch.
    set (x := blocks_text yes ++ alt_text no ++ more) in *. pose proof (head_directive _ _ _ _ Oh) as Dh. destruct (head_elif _ _ _ Oh) as (_ & _ & S3 & S4).
    pose proof Oh as (B & W & (_ & Gb) & To & Nb & Oe & Ce & Cm).
    destruct (h_test h) as [w|n|n] eqn:Et; [|discriminate|discriminate]. cbn [test_text test_ok head_words] in *.
    assert (Lw : length (h_word h) = 4%nat). { destruct (word_letters _ _ W) as (_ & y & [<-|[]] & ->); [repeat constructor|reflexivity]. }
    assert (Es : skipn 5 (skip_ws (head_text h ++ x)) = h_gap h ++ wr w ++ ending_text (h_end h) ++ x).
    { destruct Dh as (_ & _ & E & _). rewrite E. unfold head_rest. rewrite Et. cbn [test_text]. rewrite <- !app_assoc. set (v := h_gap h ++ _). change (skipn 4 (h_word h ++ v) = v). rewrite skipn_app, Lw, skipn_all2 by lia. reflexivity. }
    unfold head_text in Lm', Lm. rewrite Et in Lm', Lm. cbn [test_text] in Lm', Lm. rewrite !app_length in Lm', Lm. cbn [length] in Lm', Lm. rewrite !app_length in Lm', Lm.
    destruct m' as [|m']; [lia|].
    destruct (value_branch m' (h_gap h) w (h_end h) yes no now here s out q c p now' here' bts more) as (qq & s1 & E4 & Rs); auto.
    { fold x. rewrite app_length. lia. } { fold x. rewrite app_length. lia. }
    exists qq, s1. split.
    + unfold after_alt. rewrite !(directive_word _ _ _ _ Dh) by (simpl; auto). rewrite S3, S4, Es. exact E4.
    + destruct Rs as (N1 & N2 & N3). fold x in N2. split; [exact N1|]. split; [|exact N3]. unfold head_text. rewrite !app_length in *. cbn [length]. rewrite !app_length in *. lia.
Qed.
End Runs.
End CondLines.
(** The two loops. *)
Lemma pass_takes C m : takes_lines C m (pass_loop (knot C (S (S m)))).
Proof.
  intros f c u s r s1 Ne E. cbn [pass_loop]. rewrite bind_get, Ne, (bind_ok _ _ _ _ _ E). unfold add_line. rewrite bind_assoc, bind_get, bind_upd. reflexivity.
Qed.
Lemma macro_takes C m : takes_lines C m (macro_lines (knot C (S (S m)))).
Proof.
  intros f c u s r s1 Ne E. cbn [macro_lines]. rewrite bind_get, Ne, (bind_ok _ _ _ _ _ E). unfold add_line. rewrite bind_assoc, bind_get, bind_upd. reflexivity.
Qed.
