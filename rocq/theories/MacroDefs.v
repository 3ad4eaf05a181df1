(** Definitions of macros are kept as written, and assembly goes on after them. *)
From Verif Require Import Base BaseProofs State MonadProofs UtilsModel ErrorsModel StorageModel ParserModel PassTwoModel
  PreopModel PassOneModel DirectiveModel Knot OpcodeTables UtilsSpec UtilsProofs UtilsProps StorageSpec StorageProofs PassTwoSpec PassTwoProofs
  ParserSpec ParserProofs ParserProps StringProps DefineProofs SubstProps InstrSpec InstrProps MatchSpec MatchProps AsmSpec AsmExpand AsmProofs AsmData AsmInstr AsmLine
  CondSpec CondSkip CondRun MacroSpec MacroRun.

Lemma ci_key C a b : c_case C = false -> eqbl_ci a b = true -> key C a = key C b.
Proof.
  unfold key. intros ->. revert b. induction a as [|c a IH]; intros [|d b] E; try discriminate; [reflexivity|].
  cbn [eqbl_ci] in E. apply andb_true_iff in E as (E1 & E2). cbn. f_equal; [|now apply IH].
  unfold toupper, tolower, isupper, islower in *. repeat match goal with H : context [if ?b then _ else _] |- _ => destruct b eqn:? | |- context [if ?b then _ else _] => destruct b eqn:? end; lia.
Qed.
Definition w_param (p : param) : written := mkwritten (pa_before p) (Single (Leaf NoSign (Name (pa_name p)))) (pa_name p) (pa_after p).
Lemma param_written p : param_ok p -> written_ok (P := no_params) (w_param p).
Proof.
  intros (B & N & A & L). split; [exact B|]. split; [|split; [exact A|split; [cbn; unfold nest_limit; lia|exact L]]].
  apply (W_single _ (pa_name p)). apply (W_leaf NoSign [] (Name (pa_name p))); [exact N|constructor|reflexivity].
Qed.
Lemma params_args l : params_text l = args_text (map w_param l).
Proof. induction l as [|p [|q l] IH]; [reflexivity..|]. cbn [params_text args_text map] in *. rewrite IH. reflexivity. Qed.

Section Definitions.
Variable C : cfg.
Definition d_with (d : define) (args : list text) : define := mkdefine (d_name d) (d_line d) (d_file d) (d_contents d) args.
Lemma arg_defs_run x rest : forall l done s f expecting d,
  Forall param_ok l -> (length done + length l <= 16)%nat ->
  Forall (fun p => forall a, In a done -> eqbl (key C a) (key C (pa_name p)) = false) l -> distinct (key C) (map pa_name l) = true ->
  (l = [] -> expecting = false) -> (length l < f)%nat -> d_args d = done -> tfind x (s_defines s) = Some d ->
  exists t, arg_defs_loop C f (RG x) expecting (params_text l ++ 41 :: rest) s = Ok (Some rest) (set_defines t s) /\
    forall k, tfind k t = if eqbl k x then Some (d_with d (done ++ map pa_name l)) else tfind k (s_defines s).
Proof.
  induction l as [|p l IH]; intros done s f expecting d Ol Ll Nd Di Ex Lf Da Fd; (destruct f as [|f]; [cbn in Lf; lia|]).
  - exists (s_defines s). cbn [arg_defs_loop params_text app]. rewrite (Ex eq_refl).
    rewrite (bind_ok _ _ _ _ _ (extract_none (41 :: rest) s ltac:(right; exists 41, rest; auto))). split; [destruct s; reflexivity|].
    intros k. cbn [map]. rewrite app_nil_r. destruct (eqbl k x) eqn:E; [|reflexivity]. apply eqbl_eq in E as ->. rewrite Fd. unfold d_with. destruct d; cbn in *; subst; reflexivity.
  - inversion Ol as [|? ? Op Ol']; subst. inversion Nd as [|? ? Np Nd']; subst. cbn [map distinct] in Di. apply andb_true_iff in Di as (Di & Di').
    cbn [arg_defs_loop].
    set (u := match l with [] => 41 :: rest | _ => 44 :: params_text l ++ 41 :: rest end).
    assert (Et : params_text (p :: l) ++ 41 :: rest = pa_before p ++ pa_name p ++ pa_after p ++ u).
    { unfold u. destruct l; cbn [params_text]; unfold param_text; rewrite <- !app_assoc; reflexivity. }
    destruct (written_operand [44] _ (or_intror eq_refl) (param_written p Op)) as (ps & El & Oo). cbn [w_text w_before w_after w_param] in El, Oo.
    assert (Eu : hd0 u = 44 /\ tl u = params_text l ++ 41 :: rest /\ l <> [] \/ u = 41 :: rest /\ l = []) by (unfold u; destruct l; [right; auto|left; split; [reflexivity|split; [reflexivity|discriminate]]]).
    assert (Ee : extract_arg (params_text (p :: l) ++ 41 :: rest) expecting s = Ok (Some (pa_name p), if hd0 u =? 44 then tl u else u, hd0 u =? 44) s).
    { rewrite Et, <- El. apply (extract_operand _ u expecting s Oo). unfold u. destruct l; [right; right; exists 41, rest; auto|left; eexists; reflexivity]. }
    rewrite (bind_ok _ _ _ _ _ Ee).
    assert (Eg : get_define (RG x) s = Ok d s) by (unfold get_define; cbn [lookup_ref]; now rewrite Fd).
    rewrite (bind_ok _ _ _ _ _ Eg).
    replace (Nat.eqb (length (d_args d)) MAX_ARGS) with false by (symmetry; apply Nat.eqb_neq; unfold MAX_ARGS; cbn [length] in Ll; lia).
    assert (Ne : existsb (fun a => if c_case C then eqbl (pa_name p) a else eqbl_ci (pa_name p) a) (d_args d) = false).
    { apply Bool.not_true_iff_false. intros H. apply existsb_exists in H as (a & Ia & Ha). specialize (Np a Ia).
      assert (E : key C (pa_name p) = key C a).
      { destruct (c_case C) eqn:Cc; [apply eqbl_eq in Ha; now rewrite Ha|now apply ci_key]. }
      rewrite E, eqbl_refl in Np. discriminate Np. }
    rewrite Ne.
    set (d2 := d_with d (d_args d ++ [pa_name p])).
    assert (Ep : put_define (RG x) d2 s = Ok tt (set_defines (tset x d2 (s_defines s)) s)) by (unfold put_define; cbn [lookup_ref]; now rewrite Fd).
    fold (d_with d (d_args d ++ [pa_name p])). fold d2. rewrite (bind_ok _ _ _ _ _ Ep).
    replace (if hd0 u =? 44 then tl u else u) with (params_text l ++ 41 :: rest).
    2:{ destruct Eu as [(-> & -> & _)|(-> & ->)]; reflexivity. }
    destruct (IH (d_args d ++ [pa_name p]) (set_defines (tset x d2 (s_defines s)) s) f (hd0 u =? 44) d2) as (t & E & Ht); auto.
    + rewrite app_length. cbn [length] in *. lia.
    + rewrite Forall_forall in *. intros y Iy a Ia. apply in_app_or in Ia as [Ia|[<-|[]]]; [now apply Nd'|].
      rewrite forallb_forall in Di. specialize (Di (pa_name y) (in_map _ _ _ Iy)). now apply negb_true_iff in Di.
    + intros ->. destruct Eu as [(_ & _ & X)|(-> & _)]; [congruence|reflexivity].
    + cbn [length] in Lf. lia.
    + cbn [s_defines set_defines]. apply tfind_tset_same.
    + exists t. rewrite E. split; [reflexivity|]. intros k. rewrite Ht. cbn [s_defines set_defines map]. rewrite tfind_tset, <- app_assoc. cbn [app]. destruct (eqbl k x); reflexivity.
Qed.

(** ** What ends a directive *)
Lemma ending_ws' e x : ending_ok e -> skip_ws (ending_text e ++ x) = ending_core e ++ x.
Proof. apply (ending_ws C [] ltac:(reflexivity) ltac:(discriminate) 20%nat ltac:(lia)). Qed.
Lemma ending_next e x : ending_ok e -> skip_to_next_line (ending_text e ++ x) = x.
Proof. intros O. apply lineish_next. now apply ending_line. Qed.
Lemma core_next e x : ending_ok e -> skip_to_next_line (ending_core e ++ x) = x.
Proof. apply (ending_resumes (dr := fresh_dirs []) (Pm := no_params) (fr := []) (Cs := no_consts) (Ca := no_calls) C [] [] ltac:(reflexivity) ltac:(discriminate) 20%nat ltac:(lia) 0 (fun z _ => @no_calls_run (Z.le z) (fresh_dirs []) no_params [] no_consts C [] [] 20)). Qed.
Lemma line_end_plain a x : Forall (fun c => c <> 10 /\ c <> 13 /\ c <> 59 /\ c <> 92 /\ c <> 34) a -> skip_to_line_end (a ++ x) = skip_to_line_end x.
Proof.
  induction 1 as [|c a (H1 & H2 & H3 & H4 & H5) F IH]; [reflexivity|]. unfold skip_to_line_end in *. cbn [app skip_line_end].
  replace (c =? 10) with false by lia. replace (c =? 13) with false by lia. replace (c =? 59) with false by lia. replace (c =? 92) with false by lia. replace (c =? 34) with false by lia. exact IH.
Qed.
Lemma mark_line_end l m x : Forall (fun k => forallb isalpha k = true) l -> mark_ok l m -> skip_to_line_end (mark_text m ++ x) = ending_core (m_end m) ++ x.
Proof.
  intros F (B & W & O & _). pose proof O as (Bb & _).
  assert (E : mark_text m ++ x = (m_indent m ++ 35 :: m_word m ++ e_blanks (m_end m)) ++ ending_core (m_end m) ++ x).
  { unfold mark_text, ending_text, ending_core. rewrite <- !app_assoc. cbn [app]. now rewrite <- !app_assoc. }
  rewrite E, line_end_plain.
  - unfold ending_core. destruct (e_comment (m_end m)), (e_cr (m_end m)); reflexivity.
  - assert (Bl : forall b, Forall blank b -> Forall (fun c => c <> 10 /\ c <> 13 /\ c <> 59 /\ c <> 92 /\ c <> 34) b).
    { intros b Fb. eapply Forall_impl; [|exact Fb]. intros c H. unfold blank in H. lia. }
    apply Forall_app. split; [now apply Bl|]. constructor; [lia|]. apply Forall_app. split; [|now apply Bl].
    unfold word_is in W. apply existsb_exists in W as (k & Ik & Ek). rewrite Forall_forall in F. pose proof (F k Ik) as Fa. destruct (word_same _ _ Ek) as (_ & _ & W3). clear -W3 Fa.
    induction W3 as [|c d w k H W3 IH]; [constructor|]. cbn in Fa. apply andb_true_iff in Fa as (Fa & Fb). constructor; [|now apply IH].
    unfold isalpha, tolower, isupper, islower in *. repeat match goal with H : context [if ?b then _ else _] |- _ => destruct b eqn:? end; lia.
Qed.

(** ** The definition *)
Definition endmacro_free (t : text) : Prop := holds_word (zs "#endmacro") t = false.
Lemma starts_longer w : forall a b, starts w a = true -> starts w (a ++ b) = true.
Proof. induction w as [|c w IH]; intros a b; [reflexivity|]. destruct a as [|d a]; [discriminate|]. cbn. intros H. apply andb_true_iff in H as (-> & H). now apply IH. Qed.
Lemma free_app a b : endmacro_free (a ++ b) -> endmacro_free a /\ endmacro_free b.
Proof.
  unfold endmacro_free. intros H. split.
  - revert H. induction a as [|c a IH]; [reflexivity|]. cbn [app holds_word]. intros H. apply orb_false_iff in H as (H1 & H2). rewrite (IH H2), orb_false_r.
    apply Bool.not_true_iff_false. intros E. apply (starts_longer _ _ b) in E. cbn [app] in E. congruence.
  - revert H. induction a as [|c a IH]; [auto|]. cbn [app holds_word]. intros H. apply orb_false_iff in H as (_ & H). auto.
Qed.
Lemma free_words w : In w [zs "#endmacro"] -> In w stop_words \/ (one_line w = true /\ forall v, endmacro_free v -> starts w v = false).
Proof.
  intros [<-|[]]. right. split; [reflexivity|]. intros v H. unfold endmacro_free in H. destruct v; cbn [holds_word] in H; apply orb_false_iff in H; apply H.
Qed.
Lemma body_skipped taken0 R (P := no_params) b mk more s : s_erroc s = false -> blocks_ok (P := no_params) (key C) taken0 true b -> endmacro_free (blocks_text b) -> mark_ok [zs "endmacro"] mk ->
  (S (length (blocks_text b)) < f_n R)%nat ->
  exists ln, skip_until R true [zs "#endmacro"] (blocks_text b ++ mark_text mk ++ more) s = Ok (mark_text mk ++ more) (set_line ln s).
Proof.
  intros Ne Ob Fr Om Lf. unfold skip_until. rewrite bind_get.
  destruct (proj1 (passes_text (Pm := no_params) (key C) taken0 R [zs "#endmacro"] endmacro_free free_app free_words s Ne) b Fr Ob true 0 (s_line s) (mark_text mk ++ more) (S (length (blocks_text b ++ mark_text mk ++ more)))) as (f2 & ln2 & L2 & ->); [lia|lia|lia|].
  destruct f2 as [|f2]; [lia|]. exists ln2. rewrite Z.add_0_r.
  apply (skip_stop R [zs "#endmacro"] endmacro_free free_app free_words s Ne true ln2 (mark_text mk) (mark_rest mk) more f2).
  - apply (mark_directive [zs "endmacro"]); [repeat constructor|exact Om].
  - destruct Om as (_ & W & _). unfold mark_rest, word_is in *. cbn [existsb] in W. rewrite orb_false_r in W. rewrite (starts_ci _ _ _ _ W). reflexivity.
  - destruct Om as (_ & W & _). unfold mark_rest, word_is in *. cbn [existsb] in *. rewrite orb_false_r in *. rewrite (starts_ci _ _ _ _ W). reflexivity.
  - lia.
Qed.
Definition macro_rest (q : macro) : text :=
  q_word q ++ q_gap q ++ q_name q ++ params_part q ++ ending_text (q_end q) ++ blocks_text (q_body q) ++ mark_text (q_close q).
Lemma macro_split q : macro_text q = q_indent q ++ 35 :: macro_rest q.
Proof. unfold macro_text, macro_rest. rewrite <- !app_assoc. cbn [app]. now rewrite <- !app_assoc. Qed.

Lemma macro_def ops q more s m : macro_ok (key C) ops q -> s_erroc s = false -> s_args s = [] ->
  tfind (key C (q_name q)) (s_labels s) = None -> tfind (key C (q_name q)) (s_defines s) = None -> (S (length (macro_text q)) < m)%nat ->
  exists t ln d, handle_preop C (knot C m) (macro_rest q ++ more) s = Ok (Some (ending_core (m_end (q_close q)) ++ more)) (set_line ln (set_defines t s)) /\
    (forall k, tfind k t = if eqbl k (key C (q_name q)) then Some d else tfind k (s_defines s)) /\
    d_args d = q_names q /\ d_contents d = Some (blocks_text (q_body q)).
Proof.
  intros (Bi & Wd & (Gn & Gb) & On & Nl & Nf & N46 & Nop & Pp & Oe & Bs & Bo & Fr & Om) Ne Na Nlab Ndef Lf.
  set (nm := q_name q) in *. set (x := key C nm) in *.
  assert (Hn : exists c u, nm = c :: u /\ name_start c) by (destruct On as (_ & (c & u & E & H) & _); eauto). destruct Hn as (c & u & En & Sc).
  set (tail_ := ending_text (q_end q) ++ blocks_text (q_body q) ++ mark_text (q_close q) ++ more).
  assert (Et : macro_rest q ++ more = q_word q ++ q_gap q ++ nm ++ params_part q ++ tail_) by (unfold macro_rest, tail_; now rewrite <- !app_assoc).
  unfold handle_preop. rewrite Et.
  assert (Gs : isspace (hd0 (q_gap q ++ nm ++ params_part q ++ tail_)) = true).
  { destruct Gb as [|g gap Hg]; [congruence|]. cbn [app hd0]. now apply blank_space. }
  destruct (preop_word (q_word q) [zs "macro"] _ P_MACRO Wd ltac:(repeat constructor) Gs) as (E1 & E2 & E3). rewrite E1, E2, E3.
  assert (Ew : skip_ws (q_gap q ++ nm ++ params_part q ++ tail_) = nm ++ params_part q ++ tail_).
  { rewrite skip_ws_app by exact Gb. rewrite En. cbn [app]. apply skip_ws_nonblank. unfold blank, name_start in *. lia. }
  rewrite Ew. unfold preop_macro.
  assert (Ee : is_eol (nm ++ params_part q ++ tail_) = false).
  { rewrite En. cbn [app is_eol]. unfold name_start in Sc. lia. }
  rewrite Ee.
  assert (Hs : is_name_char (hd0 (params_part q ++ tail_)) = false).
  { unfold params_part. destruct (q_params q) as [l|].
    - destruct Pp as (Bp & _). destruct Bp as [|b bs Bb]; [reflexivity|]. cbn [app hd0]. now apply blank_space.
    - cbn [app]. unfold tail_, ending_text. destruct Oe as (Be & _). destruct Be as [|b bs Bb]; [destruct (e_comment (q_end q)), (e_cr (q_end q)); reflexivity|]. cbn [app hd0]. now apply blank_space. }
  assert (Es : skip_to_name_end (nm ++ params_part q ++ tail_) = params_part q ++ tail_) by (apply skip_name_app; [apply On|exact Hs]).
  rewrite Es, seg_app.
  set (d0 := mkdefine x (s_line s) (s_file s) None []). set (s1 := set_defines (tset x d0 (s_defines s)) s).
  assert (Ea : add_define C nm true s = Ok (Some (RG x, false)) s1).
  { unfold add_define. rewrite En, <- En. fold x. unfold search_labels. rewrite bind_assoc, bind_get, bind_ret. unfold x at 1. rewrite key_idem. fold x. rewrite Nlab.
    rewrite (bind_ok _ _ _ _ _ (AsmExpand.search_none C x s ltac:(rewrite Na; reflexivity) ltac:(unfold x; rewrite key_idem; exact Ndef))).
    rewrite !bind_get, bind_upd. reflexivity. }
  rewrite (bind_ok _ _ _ _ _ Ea).
  assert (Fd1 : tfind x (s_defines s1) = Some d0) by (cbn [s1 s_defines set_defines]; apply tfind_tset_same).
  (* the parameters *)
  assert (X : exists t r, (if hd0 (skip_ws (params_part q ++ tail_)) =? 40 then parse_arg_defs C (tl (skip_ws (params_part q ++ tail_))) (RG x) else ret (Some (skip_ws (params_part q ++ tail_)))) s1 =
      Ok (Some r) (set_defines t s) /\ skip_to_next_line r = blocks_text (q_body q) ++ mark_text (q_close q) ++ more /\
      (forall k, tfind k t = if eqbl k x then Some (d_with d0 (q_names q)) else tfind k (s_defines s))).
  { unfold params_part, q_names. destruct (q_params q) as [l|].
    - destruct Pp as (Bp & Op & L16 & Di). rewrite <- app_assoc. cbn [app]. rewrite skip_ws_app by exact Bp. rewrite skip_ws_nonblank by (unfold blank; lia). cbn [hd0 tl]. change (40 =? 40) with true. cbv iota.
      rewrite <- app_assoc. cbn [app]. unfold parse_arg_defs. rewrite (bind_ok _ _ s1 d0 s1) by (unfold get_define; cbn [lookup_ref]; now rewrite Fd1).
      rewrite (bind_ok _ _ s1 tt (set_defines (tset x d0 (s_defines s1)) s1)) by (unfold put_define; cbn [lookup_ref]; now rewrite Fd1).
      destruct (arg_defs_run x tail_ l [] (set_defines (tset x d0 (s_defines s1)) s1) (S (length (params_text l ++ 41 :: tail_))) false d0) as (t & E & Ht); auto.
      + apply Forall_forall. intros p _ a [].
      + assert (Ll : (length l <= length (args_text (map w_param l)))%nat).
        { rewrite <- (map_length w_param l) at 1. apply (args_len C [] ltac:(reflexivity) ltac:(discriminate) 20%nat ltac:(lia) no_params). apply Forall_map. eapply Forall_impl; [|exact Op]. apply param_written. }
        rewrite <- params_args in Ll. rewrite app_length. cbn [length]. lia.
      + cbn [s_defines set_defines]. apply tfind_tset_same.
      + exists t, tail_. split; [exact E|]. split; [now apply ending_next|]. intros k. rewrite Ht. cbn [app s_defines set_defines s1]. rewrite !tfind_tset. destruct (eqbl k x); reflexivity.
    - cbn [app]. unfold tail_ at 1 2 3. rewrite (ending_ws' _ _ Oe). exists (tset x d0 (s_defines s)), (ending_core (q_end q) ++ blocks_text (q_body q) ++ mark_text (q_close q) ++ more).
      split; [unfold ending_core; destruct (e_comment (q_end q)), (e_cr (q_end q)); reflexivity|]. split; [now apply core_next|]. intros k. rewrite tfind_tset. reflexivity. }
  destruct X as (t & r & Er & Nr & Ht). rewrite (bind_ok _ _ _ _ _ Er), Nr.
  set (d1 := d_with d0 (q_names q)) in *. set (d2 := mkdefine (d_name d1) (d_line d1 + 1) (d_file d1) (d_contents d1) (d_args d1)).
  set (s2 := set_line (s_line s + 1) (set_defines t s)).
  assert (El : add_line 1 (set_defines t s) = Ok tt s2) by reflexivity. rewrite (bind_ok _ _ _ _ _ El).
  assert (Fx : tfind x t = Some d1) by (rewrite Ht, eqbl_refl; reflexivity).
  rewrite (bind_ok _ _ s2 d1 s2) by (unfold get_define; cbn [lookup_ref s2 s_defines set_line set_defines]; now rewrite Fx).
  fold d2. set (s3 := set_line (s_line s + 1) (set_defines (tset x d2 t) s)).
  rewrite (bind_ok _ _ s2 tt s3) by (unfold put_define; cbn [lookup_ref s2 s_defines set_line set_defines]; now rewrite Fx).
  destruct (body_skipped (fun _ => false) (knot C m) (q_body q) (q_close q) more s3) as (ln & Eb); auto.
  { replace (f_n (knot C m)) with m by (destruct m; reflexivity). unfold macro_text in Lf. rewrite !app_length in Lf. lia. }
  rewrite (bind_ok _ _ _ _ _ Eb). rewrite seg_app.
  set (d3 := mkdefine (d_name d2) (d_line d2) (d_file d2) (Some (blocks_text (q_body q))) (d_args d2)).
  exists (tset x d3 (tset x d2 t)), ln, d3. split; [|split; [|split; reflexivity]].
  - unfold set_contents. rewrite bind_assoc.
    rewrite (bind_ok _ _ _ d2 (set_line ln s3)) by (unfold get_define; cbn [lookup_ref s3 s_defines set_line set_defines]; now rewrite tfind_tset_same).
    fold d3. rewrite (bind_ok _ _ _ tt (set_line ln (set_defines (tset x d3 (tset x d2 t)) s))) by (unfold put_define; cbn [lookup_ref s3 s_defines set_line set_defines]; now rewrite tfind_tset_same).
    rewrite (mark_line_end [zs "endmacro"]) by (try exact Om; repeat constructor). reflexivity.
  - intros k. rewrite !tfind_tset, Ht. destruct (eqbl k x); reflexivity.
Qed.

(** ** Constants *)
Lemma plain_read : forall u f w p2 p1 rest, (length u < f)%nat -> Forall plain_char u -> ~ In 40 u -> ~ In 41 u -> zlen w + zlen u <= 254 ->
  (rest = [] \/ is_eol rest = true \/ hd0 rest = 40 \/ hd0 rest = 41) ->
  read_expr_loop f true [40] scan0 0 w p2 p1 (u ++ rest) = Some (mkrx true rest (rev (rtrim (rev u ++ w))) false).
Proof.
  induction u as [|c u IH]; intros f w p2 p1 rest L F N1 N2 Lz R; (destruct f as [|f]; [cbn in L; lia|]).
  - cbn [app rev]. destruct rest as [|c rest]; [reflexivity|]. cbn [read_expr_loop hd0] in *.
    destruct R as [R|[R|[R|R]]]; [discriminate R| | |].
    + rewrite R. cbn. rewrite Bool.orb_true_r. reflexivity.
    + subst c. reflexivity.
    + subst c. cbn. destruct rest; reflexivity.
  - inversion F as [|? ? Hc F']; subst. cbn [app read_expr_loop].
    assert (E : memb c [40] = false /\ is_eol (c :: u ++ rest) = false /\ (c =? 34) = false /\ (c =? 39) = false /\ (c =? 92) = false /\ (c =? 40) = false /\ (c =? 41) = false).
    { unfold plain_char in Hc. cbn in Hc, N1, N2. cbn [memb existsb is_eol]. repeat split; lia. }
    destruct E as (E1 & E2 & E3 & E4 & E5 & E6 & E7). rewrite E1, E2. cbn [orb andb in_escape in_string in_quote scan0 negb Z.eqb]. rewrite E6, E7. cbn [andb]. unfold scan_step. cbn [in_escape scan0]. rewrite E3, E4, E5. cbn [in_escape in_string in_quote negb andb].
    rewrite zlen_cons in Lz. pose proof (zlen_nonneg u). replace (is_paren c) with false by (unfold is_paren; lia). cbn -[zlen Z.leb]. replace (254 <=? zlen w) with false by lia. cbn [andb].
    match goal with |- read_expr_loop _ _ _ ?z _ _ _ _ _ = _ => change z with scan0 end.
    rewrite IH; [|cbn in L; lia|exact F'|intros I; apply N1; now right|intros I; apply N2; now right|rewrite zlen_cons; lia|exact R].
    do 3 f_equal. now rewrite <- app_assoc.
Qed.
Lemma paren_split : forall x, exists u v, x = u ++ v /\ ~ In 40 u /\ ~ In 41 u /\ (v = [] \/ hd0 v = 40 \/ hd0 v = 41).
Proof.
  induction x as [|c x (u & v & -> & H1 & H2 & H3)]; [exists [], []; cbn; tauto|].
  destruct (Z.eq_dec c 40) as [->|N1]; [exists [], (40 :: u ++ v); cbn; tauto|]. destruct (Z.eq_dec c 41) as [->|N2]; [exists [], (41 :: u ++ v); cbn; tauto|].
  exists (c :: u), v. split; [reflexivity|]. cbn. intuition congruence.
Qed.
Lemma word_prefix k : Forall (fun c => ~ blank c) k -> forall w x te b, eqbl_ci w k = true -> w ++ x = te ++ b -> Forall blank b -> starts k te = true.
Proof.
  intros Fb. induction Fb as [|c k Hc Fb IH]; intros w x te b E Ex B; [reflexivity|].
  destruct w as [|d w]; [discriminate E|]. cbn [eqbl_ci] in E. apply andb_true_iff in E as (E1 & E2). apply Z.eqb_eq in E1.
  destruct te as [|t te].
  - cbn [app] in Ex. exfalso. subst b. inversion B as [|? ? Hd B']; subst. apply Hc. revert E1. clear -Hd. unfold blank, tolower, isupper in *. repeat match goal with |- context [if ?b then _ else _] => destruct b eqn:? end; lia.
  - cbn [app] in Ex. injection Ex as <- Ex. cbn [starts eqbl_ci]. rewrite E1, Z.eqb_refl. cbn [andb]. now apply (IH w x te b).
Qed.
Lemma define_word te b x s : Forall plain_char te -> (exists c u, te = c :: u /\ ~ blank c /\ c <> 41) -> Forall blank b -> zlen te + zlen b <= 254 -> is_eol x = true ->
  starts (zs "eval") te = false -> starts (zs "concat") te = false -> forall w1, Forall blank w1 ->
  exists r, read_expr (w1 ++ te ++ b ++ x) (zs "(") s = Ok r s /\ eqbl_ci (rx_word r) (zs "eval") = false /\ eqbl_ci (rx_word r) (zs "concat") = false.
Proof.
  intros P (c & u0 & Ec & Nb & N41) B L X S1 S2 w1 B1. unfold read_expr, read_expr', read_expr_gen. rewrite skip_ws_app by exact B1.
  assert (Es : skip_ws (te ++ b ++ x) = te ++ b ++ x) by (rewrite Ec; cbn [app]; now apply skip_ws_nonblank).
  rewrite Es. assert (Eo : is_eol (te ++ b ++ x) || (hd0 (te ++ b ++ x) =? 41) = false).
  { rewrite Ec in P |- *. inversion P as [|? ? Pc _]; subst. unfold plain_char in Pc. cbn in Pc. cbn [app is_eol hd0]. lia. }
  rewrite Eo. destruct (paren_split (te ++ b)) as (u & v & Ex & Nu1 & Nu2 & Hv).
  assert (Pu : Forall plain_char u). { assert (Pa : Forall plain_char (te ++ b)) by (apply Forall_app; split; [exact P|now apply blank_plain]). rewrite Ex in Pa. apply Forall_app in Pa. apply Pa. }
  assert (Lu : zlen u <= 254). { assert (E : zlen (te ++ b) = zlen (u ++ v)) by now rewrite Ex. rewrite !zlen_app in E. pose proof (zlen_nonneg v). lia. }
  rewrite (app_assoc te b x), Ex, <- app_assoc. change (zs "(") with [40].
  rewrite plain_read; [|rewrite app_length; lia|exact Pu|exact Nu1|exact Nu2|change (zlen []) with 0; lia|].
  2:{ destruct v as [|y v]; [right; left; exact X|]. right. right. cbn [app hd0] in *. destruct Hv as [Hv|Hv]; [discriminate Hv|exact Hv]. }
  cbn [rx_long]. rewrite app_nil_r. eexists. split; [reflexivity|]. cbn [rx_word].
  destruct (rtrim_spec (rev u)) as (z & Ez & _). apply (f_equal (@rev Z)) in Ez. rewrite rev_involutive, rev_app_distr in Ez. set (w := rev (rtrim (rev u))) in *.
  assert (Q : w ++ rev z ++ v = te ++ b) by (rewrite Ex, Ez at 1; now rewrite <- app_assoc).
  split; apply Bool.not_true_iff_false; intros H.
  - apply (word_prefix (zs "eval")) with (x := rev z ++ v) (te := te) (b := b) in H; [congruence| |exact Q|exact B].
    let l := eval vm_compute in (zs "eval") in change (zs "eval") with l. repeat (apply Forall_cons; [unfold blank; lia|]). apply Forall_nil.
  - apply (word_prefix (zs "concat")) with (x := rev z ++ v) (te := te) (b := b) in H; [congruence| |exact Q|exact B].
    let l := eval vm_compute in (zs "concat") in change (zs "concat") with l. repeat (apply Forall_cons; [unfold blank; lia|]). apply Forall_nil.
Qed.
Definition constant_rest (c : constant) : text := v_word c ++ v_gap c ++ v_name c ++ match v_is c with Some w => wr w | None => [] end ++ ending_text (v_end c).
Lemma constant_split c : constant_text c = v_indent c ++ 35 :: constant_rest c.
Proof. reflexivity. Qed.
(** What a constant is kept as. *)
Definition kept_as (c : constant) (d : define) : Prop :=
  d_args d = [] /\ exists w1 te w2, d_contents d = Some (w1 ++ te ++ w2) /\ Forall blank w1 /\ writes (v_expr c) te /\ Forall blank w2 /\ Forall plain_char te.
Lemma constant_def c more s m : constant_ok (key C) c -> s_args s = [] ->
  tfind (key C (v_name c)) (s_labels s) = None -> tfind (key C (v_name c)) (s_defines s) = None ->
  exists t d q, handle_preop C (knot C m) (constant_rest c ++ more) s = Ok (Some q) (set_last_define (Some (RG (key C (v_name c)))) (set_defines t s)) /\
    (forall k, tfind k t = if eqbl k (key C (v_name c)) then Some d else tfind k (s_defines s)) /\
    kept_as c d /\ skip_to_next_line q = more /\ hd0 (skip_ws q) <> 92.
Proof.
  intros (Bi & Wd & (Gn & Gb) & On & Nl & Nf & Vs & Oe) Na Nlab Ndef.
  set (nm := v_name c) in *. set (x := key C nm) in *.
  assert (Hn : exists c u, nm = c :: u /\ name_start c) by (destruct On as (_ & (y & u & E & H) & _); eauto). destruct Hn as (c0 & u0 & En & Sc).
  set (tail_ := match v_is c with Some w => wr w | None => [] end ++ ending_text (v_end c) ++ more).
  assert (Et : constant_rest c ++ more = v_word c ++ v_gap c ++ nm ++ tail_) by (unfold constant_rest, tail_; now rewrite <- !app_assoc).
  unfold handle_preop. rewrite Et.
  assert (Gs : isspace (hd0 (v_gap c ++ nm ++ tail_)) = true).
  { destruct Gb as [|g gap Hg]; [congruence|]. cbn [app hd0]. now apply blank_space. }
  destruct (preop_word (v_word c) [zs "define"] _ P_DEFINE Wd ltac:(repeat constructor) Gs) as (E1 & E2 & E3). rewrite E1, E2, E3.
  assert (Ew : skip_ws (v_gap c ++ nm ++ tail_) = nm ++ tail_).
  { rewrite skip_ws_app by exact Gb. rewrite En. cbn [app]. apply skip_ws_nonblank. unfold blank, name_start in *. lia. }
  rewrite Ew. unfold preop_define.
  assert (Ee : is_eol (nm ++ tail_) = false).
  { rewrite En. cbn [app is_eol]. unfold name_start in Sc. lia. }
  rewrite Ee.
  assert (He : is_name_char (hd0 (ending_text (v_end c) ++ more)) = false /\ hd0 (ending_text (v_end c) ++ more) <> 40).
  { unfold ending_text. destruct Oe as (Be & _). destruct Be as [|b bs Bb]; [destruct (e_comment (v_end c)), (e_cr (v_end c)); cbn; (split; [reflexivity|lia])|]. cbn [app hd0]. split; [now apply blank_space|unfold blank in Bb; lia]. }
  assert (Hs : is_name_char (hd0 tail_) = false /\ hd0 tail_ <> 40).
  { unfold tail_. destruct (v_is c) as [w|]; [|exact He]. destruct Vs as ((Gn2 & Gb2) & _). unfold wr. destruct Gb2 as [|b bs Bb]; [congruence|]. cbn [app hd0]. split; [now apply blank_space|unfold blank in Bb; lia]. }
  assert (Es : skip_to_name_end (nm ++ tail_) = tail_) by (apply skip_name_app; [apply On|apply Hs]).
  rewrite Es, seg_app.
  set (d0 := mkdefine x (s_line s) (s_file s) None []). set (t1 := tset x d0 (s_defines s)). set (s1 := set_defines t1 s).
  assert (Ea : add_define C nm true s = Ok (Some (RG x, false)) s1).
  { unfold add_define. rewrite En, <- En. fold x. unfold search_labels. rewrite bind_assoc, bind_get, bind_ret. unfold x at 1. rewrite key_idem. fold x. rewrite Nlab.
    rewrite (bind_ok _ _ _ _ _ (AsmExpand.search_none C x s ltac:(rewrite Na; reflexivity) ltac:(unfold x; rewrite key_idem; exact Ndef))).
    rewrite !bind_get, bind_upd. reflexivity. }
  rewrite (bind_ok _ _ _ _ _ Ea). rewrite bind_upd. set (s2 := set_last_define (Some (RG x)) s1).
  replace (hd0 tail_ =? 40) with false by lia.
  assert (Fd1 : tfind x (s_defines s2) = Some d0) by (cbn [s2 s1 s_defines set_defines]; apply tfind_tset_same).
  assert (St : forall v, set_contents (RG x) v s2 = Ok tt (set_last_define (Some (RG x)) (set_defines (tset x (mkdefine x (s_line s) (s_file s) (Some v) []) t1) s))).
  { intros v. unfold set_contents, get_define, put_define, bind. cbn [lookup_ref]. rewrite Fd1. cbn iota. rewrite Fd1. reflexivity. }
  assert (Ht : forall v k, tfind k (tset x (mkdefine x (s_line s) (s_file s) (Some v) []) t1) = if eqbl k x then Some (mkdefine x (s_line s) (s_file s) (Some v) []) else tfind k (s_defines s)).
  { intros v k. unfold t1. rewrite !tfind_tset. destruct (eqbl k x); reflexivity. }
  destruct (v_is c) as [w|] eqn:Ev.
  - destruct Vs as ((Gn2 & Gb2) & (B1 & Wr & B2 & _ & _) & Pc & X1 & X2 & Ln).
    destruct (writes_first _ _ Wr) as (y & u & Ey & Ys).
    assert (Yn : ~ blank y /\ y <> 41 /\ is_eol (y :: u) = false).
    { unfold term_start, isalnum, isalpha, isdigit, isupper, islower in Ys. unfold blank. cbn [is_eol]. assert (Py : plain_char y). { rewrite forallb_forall in Pc. specialize (Pc y ltac:(rewrite Ey; now left)). apply negb_true_iff in Pc. unfold plain_char. unfold memb in Pc. cbn [existsb] in Pc. cbn. lia. } unfold plain_char in Py. cbn in Py. lia. }
    assert (Pl : Forall plain_char (w_text w)).
    { apply Forall_forall. intros z Iz. rewrite forallb_forall in Pc. specialize (Pc z Iz). apply negb_true_iff in Pc. unfold plain_char. unfold memb in Pc. cbn [existsb] in Pc. cbn. lia. }
    assert (E5 : tail_ = w_before w ++ w_text w ++ (w_after w ++ e_blanks (v_end c)) ++ ending_core (v_end c) ++ more) by (unfold tail_, wr, ending_text, ending_core; now rewrite <- !app_assoc).
    assert (B3 : Forall blank (w_after w ++ e_blanks (v_end c))) by (apply Forall_app; split; [exact B2|apply Oe]).
    assert (Ec : is_eol (ending_core (v_end c) ++ more) = true) by (unfold ending_core; destruct (e_comment (v_end c)), (e_cr (v_end c)); reflexivity).
    replace (is_eol (skip_ws tail_)) with false.
    2:{ rewrite E5, skip_ws_app by exact Gb2. rewrite Ey. cbn [app]. rewrite skip_ws_nonblank by apply Yn. cbn [is_eol] in *. symmetry. apply Yn. }
    destruct (define_word (w_text w) (w_after w ++ e_blanks (v_end c)) (ending_core (v_end c) ++ more) s2 Pl ltac:(exists y, u; split; [exact Ey|split; apply Yn]) B3 ltac:(rewrite zlen_app; lia) Ec X1 X2 (w_before w) Gb2) as (rx & Er & W1 & W2).
    rewrite <- E5 in Er. rewrite (bind_ok _ _ _ _ _ Er), W1, W2.
    assert (El : skip_to_line_end tail_ = ending_core (v_end c) ++ more).
    { rewrite E5, !app_assoc, <- app_assoc, line_end_plain; [unfold ending_core; destruct (e_comment (v_end c)), (e_cr (v_end c)); reflexivity|].
      assert (F : Forall plain_char ((w_before w ++ w_text w) ++ w_after w ++ e_blanks (v_end c))) by (repeat (apply Forall_app; split); try exact Pl; apply blank_plain; auto; apply Oe).
      rewrite <- app_assoc in F. rewrite <- !app_assoc. eapply Forall_impl; [|exact F]. intros z Hz. unfold plain_char in Hz. cbn in Hz. lia. }
    rewrite El. assert (Sg : seg tail_ (ending_core (v_end c) ++ more) = w_before w ++ w_text w ++ w_after w ++ e_blanks (v_end c)).
    { rewrite E5, !app_assoc, <- app_assoc, seg_app. now rewrite <- !app_assoc. }
    rewrite Sg. assert (Rd : forall v, redefine C (knot C m) (RG x) v false s2 = Ok tt (set_last_define (Some (RG x)) (set_defines (tset x (mkdefine x (s_line s) (s_file s) (Some v) []) t1) s))).
    { intros v. unfold redefine, set_define, set_contents, get_define, put_define, bind. cbn [lookup_ref]. rewrite Fd1. cbn iota. rewrite Fd1. cbn iota. rewrite Fd1. reflexivity. }
    rewrite (bind_ok _ _ _ _ _ (Rd _)).
    eexists _, _, _. split; [reflexivity|]. split; [intros k; apply Ht|]. split; [|split; [now apply core_next|]].
    + split; [reflexivity|]. exists (w_before w), (w_text w), (w_after w ++ e_blanks (v_end c)). split; [reflexivity|]. split; [exact Gb2|]. split; [unfold v_expr; rewrite Ev; exact Wr|]. split; assumption.
    + unfold ending_core. destruct (e_comment (v_end c)), (e_cr (v_end c)); cbn; lia.
  - cbn [app] in tail_. subst tail_.
    assert (E5 : skip_ws (ending_text (v_end c) ++ more) = ending_core (v_end c) ++ more) by now apply ending_ws'.
    replace (is_eol (skip_ws (ending_text (v_end c) ++ more))) with true by (rewrite E5; unfold ending_core; destruct (e_comment (v_end c)), (e_cr (v_end c)); reflexivity).
    rewrite (bind_ok _ _ _ _ _ (St _)).
    eexists _, _, _. split; [reflexivity|]. split; [intros k; apply Ht|]. split; [|split; [now apply ending_next|]].
    + split; [reflexivity|]. exists [], [49], []. split; [reflexivity|]. split; [constructor|]. split; [|split; [constructor|repeat constructor; unfold plain_char; cbn; lia]].
      unfold v_expr. rewrite Ev. apply (W_single _ [49]). apply (W_leaf NoSign [] (Num (Decimal [49]))); [|constructor|reflexivity]. cbn [atom_ok]. split; [discriminate|split; [apply Forall_cons; [exists 1; split; [reflexivity|cbn; lia]|apply Forall_nil]|exact I]].
    + rewrite E5. unfold ending_core. destruct (e_comment (v_end c)), (e_cr (v_end c)); cbn; lia.
Qed.
(** ** Macros in one line *)
Lemma line_end_break b x : Forall (fun c => c <> 10 /\ c <> 13 /\ c <> 59) b -> (hd0 x = 10 \/ hd0 x = 13) -> forall esc quo, skip_line_end esc quo (b ++ x) = x.
Proof.
  intros F X. induction F as [|c b H F IH]; intros esc quo.
  - destruct x as [|c x]; [cbn in X; lia|]. cbn in *. replace ((c =? 10) || (c =? 13)) with true by lia. reflexivity.
  - cbn [app skip_line_end]. replace ((c =? 10) || (c =? 13) || (c =? 59) && negb quo) with false by (destruct quo; lia). destruct (c =? 92); [apply IH|]. destruct ((c =? 34) && negb esc); apply IH.
Qed.
Lemma line_end_note b x : Forall (fun c => c <> 10 /\ c <> 13 /\ c <> 59) b -> ~ In 34 b -> forall esc, skip_line_end esc false (b ++ 59 :: x) = 59 :: x.
Proof.
  intros F. induction F as [|c b H F IH]; intros N esc; [reflexivity|].
  cbn [app skip_line_end]. replace ((c =? 10) || (c =? 13) || (c =? 59) && negb false) with false by lia. replace (c =? 34) with false by (apply not_eq_sym, Z.eqb_neq in N || (destruct (c =? 34) eqn:E; [|reflexivity]; exfalso; apply N; left; lia)).
  cbn [andb]. destruct (c =? 92); apply IH; intros I; apply N; now right.
Qed.
Definition short_rest (o : short) : text :=
  o_word o ++ o_gap o ++ o_name o ++ 40 :: params_text (o_params o) ++ 41 :: o_body o ++ match o_comment o with Some t => 59 :: t | None => [] end ++ eol_text (o_cr o).
Lemma short_split o : short_text o = o_indent o ++ 35 :: short_rest o.
Proof. reflexivity. Qed.
Lemma short_def ops o more s m : short_ok (key C) ops o -> s_args s = [] ->
  tfind (key C (o_name o)) (s_labels s) = None -> tfind (key C (o_name o)) (s_defines s) = None ->
  exists t d q, handle_preop C (knot C m) (short_rest o ++ more) s = Ok (Some q) (set_last_define (Some (RG (key C (o_name o)))) (set_defines t s)) /\
    (forall k, tfind k t = if eqbl k (key C (o_name o)) then Some d else tfind k (s_defines s)) /\
    d_args d = map pa_name (o_params o) /\ d_contents d = Some (o_body o) /\ skip_to_next_line q = more /\ hd0 (skip_ws q) <> 92.
Proof.
  intros (Bi & Wd & (Gn & Gb) & On & Nl & Nf & N46 & Nop & Op & L16 & Di & Lb & Bh & Bc & Cm) Na Nlab Ndef.
  set (nm := o_name o) in *. set (x := key C nm) in *. set (l := o_params o) in *.
  assert (Hn : exists c u, nm = c :: u /\ name_start c) by (destruct On as (_ & (y & u & E & H) & _); eauto). destruct Hn as (c0 & u0 & En & Sc).
  set (after_ := match o_comment o with Some t => 59 :: t | None => [] end ++ eol_text (o_cr o) ++ more).
  set (tail_ := 40 :: params_text l ++ 41 :: o_body o ++ after_).
  assert (Et : short_rest o ++ more = o_word o ++ o_gap o ++ nm ++ tail_) by (unfold short_rest, tail_, after_; rewrite <- !app_assoc; cbn [app]; rewrite <- !app_assoc; cbn [app]; now rewrite <- !app_assoc).
  unfold handle_preop. rewrite Et.
  assert (Gs : isspace (hd0 (o_gap o ++ nm ++ tail_)) = true).
  { destruct Gb as [|g gap Hg]; [congruence|]. cbn [app hd0]. now apply blank_space. }
  destruct (preop_word (o_word o) [zs "define"] _ P_DEFINE Wd ltac:(repeat constructor) Gs) as (E1 & E2 & E3). rewrite E1, E2, E3.
  assert (Ew : skip_ws (o_gap o ++ nm ++ tail_) = nm ++ tail_).
  { rewrite skip_ws_app by exact Gb. rewrite En. cbn [app]. apply skip_ws_nonblank. unfold blank, name_start in *. lia. }
  rewrite Ew. unfold preop_define.
  assert (Ee : is_eol (nm ++ tail_) = false).
  { rewrite En. cbn [app is_eol]. unfold name_start in Sc. lia. }
  rewrite Ee.
  assert (Es : skip_to_name_end (nm ++ tail_) = tail_) by (apply skip_name_app; [apply On|reflexivity]).
  rewrite Es, seg_app.
  set (d0 := mkdefine x (s_line s) (s_file s) None []). set (t1 := tset x d0 (s_defines s)). set (s1 := set_defines t1 s).
  assert (Ea : add_define C nm true s = Ok (Some (RG x, false)) s1).
  { unfold add_define. rewrite En, <- En. fold x. unfold search_labels. rewrite bind_assoc, bind_get, bind_ret. unfold x at 1. rewrite key_idem. fold x. rewrite Nlab.
    rewrite (bind_ok _ _ _ _ _ (AsmExpand.search_none C x s ltac:(rewrite Na; reflexivity) ltac:(unfold x; rewrite key_idem; exact Ndef))).
    rewrite !bind_get, bind_upd. reflexivity. }
  rewrite (bind_ok _ _ _ _ _ Ea). rewrite bind_upd. set (s2 := set_last_define (Some (RG x)) s1).
  unfold tail_ at 1 2. cbn [hd0 tl]. change (40 =? 40) with true. cbv iota.
  assert (Fd1 : tfind x (s_defines s2) = Some d0) by (cbn [s2 s1 s_defines set_defines set_last_define]; apply tfind_tset_same).
  unfold parse_arg_defs. rewrite bind_assoc, (bind_ok _ _ s2 d0 s2) by (unfold get_define; cbn [lookup_ref]; now rewrite Fd1).
  rewrite bind_assoc, (bind_ok _ _ s2 tt (set_defines (tset x d0 (s_defines s2)) s2)) by (unfold put_define; cbn [lookup_ref]; now rewrite Fd1).
  destruct (arg_defs_run x (o_body o ++ after_) l [] (set_defines (tset x d0 (s_defines s2)) s2) (S (length (params_text l ++ 41 :: o_body o ++ after_))) false d0) as (t & E & Ht); auto.
  { apply Forall_forall. intros p _ a []. }
  { assert (Ll : (length l <= length (args_text (map w_param l)))%nat).
    { rewrite <- (map_length w_param l) at 1. apply (args_len C [] ltac:(reflexivity) ltac:(discriminate) 20%nat ltac:(lia) no_params). apply Forall_map. eapply Forall_impl; [|exact Op]. apply param_written. }
    rewrite <- params_args in Ll. rewrite app_length. cbn [length]. lia. }
  { cbn [s_defines set_defines]. apply tfind_tset_same. }
  rewrite (bind_ok _ _ _ _ _ E). set (d1 := d_with d0 ([] ++ map pa_name l)) in *.
  assert (Eb : is_eol (o_body o ++ after_) = false). { destruct (o_body o) as [|c b]; [contradiction|]. cbn [app is_eol]. unfold line_ender in Bh. lia. }
  rewrite Eb.
  assert (El : skip_to_line_end (o_body o ++ after_) = after_).
  { unfold skip_to_line_end, after_. destruct (o_comment o) as [c|]; [cbn [app]; now apply line_end_note|]. apply line_end_break; [exact Bc|]. destruct (o_cr o); cbn; lia. }
  rewrite El, seg_app. set (s3 := set_defines t _) in *.
  assert (Fx : tfind x (s_defines s3) = Some d1) by (cbn [s3 s_defines set_defines]; rewrite Ht, eqbl_refl; reflexivity).
  set (d2 := mkdefine (d_name d1) (d_line d1) (d_file d1) (Some (o_body o)) (d_args d1)).
  assert (Rd : redefine C (knot C m) (RG x) (o_body o) false s3 = Ok tt (set_last_define (Some (RG x)) (set_defines (tset x d2 t) s))).
  { unfold redefine, set_define, set_contents, get_define, put_define, bind. cbn [lookup_ref]. rewrite Fx. cbn iota. rewrite Fx. cbn iota. rewrite Fx. reflexivity. }
  rewrite (bind_ok _ _ _ _ _ Rd).
  exists (tset x d2 t), d2, after_. split; [reflexivity|]. split; [|split; [reflexivity|split; [reflexivity|split]]].
  - intros k. rewrite tfind_tset, Ht. cbn [s_defines set_defines s2 s1 set_last_define]. unfold t1. rewrite !tfind_tset. destruct (eqbl k x); reflexivity.
  - unfold after_. apply skip_to_next_line_spec.
    + destruct (o_comment o); [|constructor]. constructor; [unfold line_break; lia|]. eapply Forall_impl; [|exact (proj1 Cm)]. intros c (H1 & H2). unfold line_break. lia.
    + destruct (o_cr o); constructor.
  - unfold after_. destruct (o_comment o), (o_cr o); cbn; lia.
Qed.
(** ** Definitions one after the other *)
Context {dr : Dirs}.
Variable lv : Level.
Notation goodD D := (@good lv dr no_params [] no_consts C D).
Definition item_kept (i : item) (d : define) : Prop :=
  match i with IMacro q => d_args d = q_names q /\ d_contents d = Some (blocks_text (q_body q)) | IConst c => kept_as c d
  | IShort o => d_args d = map pa_name (o_params o) /\ d_contents d = Some (o_body o) end.
Definition defs_after (l : list item) (D D' : list (text * define)) : Prop :=
  (forall i, In i l -> exists d, tfind (key C (item_name i)) D' = Some d /\ item_kept i d) /\
  (forall k, Forall (fun i => eqbl k (key C (item_name i)) = false) l -> tfind k D' = tfind k D).
Lemma item_pass tops ops m i more D s fuel : (20 <= m)%nat -> item_ok (key C) tops i -> tfind (key C (item_name i)) D = None ->
  goodD D ops 1 [] 0 [] [] s -> (S (length (item_text i)) < m)%nat ->
  exists D' s' d, pass_loop (knot C (S (S m))) (S fuel) (item_text i ++ more) s = pass_loop (knot C (S (S m))) fuel more s' /\
    goodD D' ops 1 [] 0 [] [] s' /\ (forall k, tfind k D' = if eqbl k (key C (item_name i)) then Some d else tfind k D) /\ item_kept i d.
Proof.
  intros Hm Oi Ni G Lm.
  pose proof G as (K & A & So & Hh). pose proof (k_labels _ _ _ _ _ _ K (item_name i)) as Kl. cbn [assoc] in Kl.
  assert (Nl : tfind (key C (item_name i)) (s_labels s) = None) by (destruct (tfind _ (s_labels s)); [discriminate Kl|reflexivity]).
  pose proof (k_erroc _ _ _ _ _ _ K) as Ke. pose proof (k_args _ _ _ _ _ _ K) as Ka. pose proof (k_defines _ _ _ _ _ _ K) as Kd.
  destruct i as [q|c|o]; cbn [item_text item_name item_ok item_kept] in *.
  - destruct (macro_def tops q more s m Oi Ke Ka Nl ltac:(rewrite Kd; exact Ni) ltac:(lia)) as (t & ln & d & E & Ht & Da & Dc).
    rewrite Kd in Ht. pose proof Oi as (Bi & _ & _ & _ & _ & _ & _ & _ & _ & _ & _ & _ & _ & Om). pose proof Om as (_ & _ & Oe & _).
    rewrite macro_split in *. exists t, (set_line (ln + 1) (set_line ln (set_defines t s))), d. split; [|split; [|auto]].
    + rewrite (pass_dir (dr := fresh_dirs []) (Pm := no_params) (fr := []) (Cs := no_consts) (Ca := no_calls) C [] [] ltac:(reflexivity) ltac:(discriminate) 20%nat ltac:(lia) 0 (fun z _ => @no_calls_run (Z.le z) (fresh_dirs []) no_params [] no_consts C [] [] 20) m 1 Hm ltac:(lia) _ (pass_takes C m)
        (q_indent q) (macro_rest q) more s fuel _ _ Bi Ke E Ke); [now rewrite core_next|].
      unfold ending_core. destruct (e_comment (m_end (q_close q))), (e_cr (m_end (q_close q))); cbn; lia.
    + split; [|split; [destruct A; constructor; assumption|split; assumption]]. destruct K; constructor; try assumption; try reflexivity. intros n v Hv. discriminate Hv.
  - destruct (constant_def c more s m Oi Ka Nl ltac:(rewrite Kd; exact Ni)) as (t & d & q & E & Ht & Kp & Nx & N92).
    rewrite Kd in Ht. pose proof Oi as (Bi & _).
    rewrite constant_split in *. eexists t, _, d. split; [|split; [|split; [exact Ht|exact Kp]]].
    + rewrite (pass_dir (dr := fresh_dirs []) (Pm := no_params) (fr := []) (Cs := no_consts) (Ca := no_calls) C [] [] ltac:(reflexivity) ltac:(discriminate) 20%nat ltac:(lia) 0 (fun z _ => @no_calls_run (Z.le z) (fresh_dirs []) no_params [] no_consts C [] [] 20) m 1 Hm ltac:(lia) _ (pass_takes C m)
        (v_indent c) (constant_rest c) more s fuel _ _ Bi Ke E Ke N92). rewrite Nx. reflexivity.
    + split; [|split; [destruct A; constructor; assumption|split; assumption]]. destruct K; constructor; try assumption; try reflexivity. intros n v Hv. discriminate Hv.
  - destruct (short_def tops o more s m Oi Ka Nl ltac:(rewrite Kd; exact Ni)) as (t & d & q & E & Ht & Da & Dc & Nx & N92).
    rewrite Kd in Ht. pose proof Oi as (Bi & _).
    rewrite short_split in *. eexists t, _, d. split; [|split; [|split; [exact Ht|split; [exact Da|exact Dc]]]].
    + rewrite (pass_dir (dr := fresh_dirs []) (Pm := no_params) (fr := []) (Cs := no_consts) (Ca := no_calls) C [] [] ltac:(reflexivity) ltac:(discriminate) 20%nat ltac:(lia) 0 (fun z _ => @no_calls_run (Z.le z) (fresh_dirs []) no_params [] no_consts C [] [] 20) m 1 Hm ltac:(lia) _ (pass_takes C m)
        (o_indent o) (short_rest o) more s fuel _ _ Bi Ke E Ke N92). rewrite Nx. reflexivity.
    + split; [|split; [destruct A; constructor; assumption|split; assumption]]. destruct K; constructor; try assumption; try reflexivity. intros n v Hv. discriminate Hv.
Qed.
Lemma header_pass tops ops m more : (20 <= m)%nat -> forall l D s fuel,
  Forall (fun i => item_ok (key C) tops i /\ tfind (key C (item_name i)) D = None) l -> distinct (key C) (map item_name l) = true ->
  goodD D ops 1 [] 0 [] [] s -> (length (header_text l ++ more) < fuel)%nat -> (S (length (header_text l)) < m)%nat ->
  exists D' s' fuel', (length more < fuel')%nat /\ pass_loop (knot C (S (S m))) fuel (header_text l ++ more) s = pass_loop (knot C (S (S m))) fuel' more s' /\
    goodD D' ops 1 [] 0 [] [] s' /\ defs_after l D D'.
Proof.
  intros Hm. induction l as [|q l IH]; intros D s fuel Ol Di G Fu Lm.
  - exists D, s, fuel. split; [exact Fu|]. split; [reflexivity|]. split; [exact G|]. split; [intros q []|reflexivity].
  - inversion Ol as [|? ? (Oq & Nq) Ol']; subst. cbn [map distinct] in Di. apply andb_true_iff in Di as (Di & Di'). cbn [header_text flat_map] in *. fold (header_text l) in *.
    rewrite <- app_assoc in *. rewrite app_length in Fu, Lm. destruct fuel as [|fuel]; [lia|].
    destruct (item_pass tops ops m q (header_text l ++ more) D s fuel Hm Oq Nq G ltac:(lia)) as (t & s1 & d & Ep & G1 & Ht & Kp).
    assert (Lq : (0 < length (item_text q))%nat).
    { destruct q as [q|c|o]; cbn [item_text]; [rewrite macro_split|rewrite constant_split|rewrite short_split]; rewrite app_length; cbn [length]; lia. }
    destruct (IH t s1 fuel) as (D' & s' & f' & L' & E' & G' & H1 & H2); auto.
    + rewrite Forall_forall in *. intros y Iy. destruct (Ol' y Iy) as (Oy & Ny). split; [exact Oy|]. rewrite Ht, Ny. rewrite forallb_forall in Di. specialize (Di (item_name y) (in_map _ _ _ Iy)).
      apply negb_true_iff in Di. destruct (eqbl (key C (item_name y)) (key C (item_name q))) eqn:Q; [|reflexivity]. apply eqbl_eq in Q. rewrite Q, eqbl_refl in Di. discriminate Di.
    + lia.
    + lia.
    + exists D', s', f'. split; [exact L'|]. split; [now rewrite Ep|]. split; [exact G'|]. split.
      * intros y [<-|Iy]; [|now apply H1]. exists d. split; [|exact Kp]. rewrite H2; [now rewrite Ht, eqbl_refl|].
        rewrite Forall_forall. intros y Iy. rewrite forallb_forall in Di. specialize (Di (item_name y) (in_map _ _ _ Iy)). now apply negb_true_iff in Di.
      * intros k F. inversion F as [|? ? F1 F2]; subst. rewrite (H2 k F2), Ht, F1. reflexivity.
Qed.
(** The names that are defined then. *)
Lemma after_find l D D' k : defs_after l D D' -> match find (fun q => eqbl (key C (item_name q)) k) l with
  | Some q => In q l /\ key C (item_name q) = k | None => tfind k D' = tfind k D end.
Proof.
  intros (_ & H). destruct (find _ l) as [q|] eqn:E.
  - apply find_some in E as (I & E). split; [exact I|]. now apply eqbl_eq in E.
  - apply H. apply Forall_forall. intros q I. apply (find_none _ _ E) in I. apply Bool.not_true_iff_false. intros Q. apply eqbl_eq in Q. rewrite Q, eqbl_refl in I. discriminate I.
Qed.
Lemma after_taken l D D' n : defs_after l D D' -> taken C D' n = taken C D n || header_name (key C) l n.
Proof.
  intros A. pose proof (after_find l D D' (key C n) A) as F. rewrite !taken_find. unfold header_name. destruct (find _ l) as [q|] eqn:E.
  - destruct F as (I & Q). destruct A as (H & _). destruct (H q I) as (d & Fd & _). rewrite Q in Fd. rewrite Fd. symmetry. apply orb_true_iff. right. apply existsb_exists. exists q. split; [exact I|]. now rewrite Q, eqbl_refl.
  - rewrite F. replace (existsb _ l) with false; [now rewrite orb_false_r|]. symmetry. apply Bool.not_true_iff_false. intros Q. apply existsb_exists in Q as (q & I & Q). apply (find_none _ _ E) in I. congruence.
Qed.
Lemma name_key_start n w : name_ok n -> key C n = key C w -> name_start (hd0 w).
Proof.
  intros N E. destruct N as (_ & (c & u & -> & H) & _). unfold key in E. destruct (c_case C); [now subst|].
  destruct w as [|d w]; [discriminate|]. cbn in E. injection E as E _. cbn [hd0]. unfold name_start in *. unfold toupper, islower in E.
  repeat match goal with H : context [if ?b then _ else _] |- _ => destruct b eqn:? end; lia.
Qed.
Lemma after_names l D D' : defs_after l D D' -> Forall (fun q => name_ok (item_name q)) l -> (forall w, ~ name_start (hd0 w) -> tfind (key C w) D = None) ->
  forall w, ~ name_start (hd0 w) -> tfind (key C w) D' = None.
Proof.
  intros A On H w N. pose proof (after_find l D D' (key C w) A) as F. destruct (find _ l) as [q|]; [|now rewrite F, H].
  exfalso. destruct F as (I & E). rewrite Forall_forall in On. apply N. now apply (name_key_start (item_name q)); [apply On|].
Qed.
Lemma after_full l D D' : defs_after l D D' -> (forall k d, tfind k D = Some d -> d_contents d <> None) -> forall k d, tfind k D' = Some d -> d_contents d <> None.
Proof.
  intros A H k d E. pose proof (after_find l D D' k A) as F. destruct (find _ l) as [q|].
  - destruct F as (I & Q). destruct A as (A & _). destruct (A q I) as (d' & Fd & Kp). rewrite Q, E in Fd. injection Fd as <-. destruct q as [q|c|o]; [destruct Kp as (_ & ->); discriminate| |destruct Kp as (_ & ->); discriminate]. destruct Kp as (_ & w1 & te & w2 & -> & _). discriminate.
  - rewrite F in E. now apply (H k).
Qed.

(** ** The values of the constants *)
Lemma value_fixed wraps here here' (f : text -> option Z) :
  (forall u, term_fixed u = true -> term_value wraps here f u = term_value wraps here' f u) /\
  (forall e, fixed e = true -> value wraps here f e = value wraps here' f e).
Proof.
  apply term_expr_ind.
  - intros g a H. destruct a; try reflexivity. discriminate H.
  - intros g e IH H. change (andthen (value wraps here f e) (apply_sign wraps g) = andthen (value wraps here' f e) (apply_sign wraps g)). now rewrite IH.
  - intros t IH H. exact (IH H).
  - intros e IHe o t IHt H. cbn [fixed] in H. apply andb_true_iff in H as (H1 & H2).
    change (andthen (value wraps here f e) (fun a => andthen (term_value wraps here f t) (compute wraps o a)) =
      andthen (value wraps here' f e) (fun a => andthen (term_value wraps here' f t) (compute wraps o a))). now rewrite IHe, IHt.
Qed.
(** What is known of the constants so far: each is in the table, and is what its definition says. *)
Definition levels_ok (D : list (text * define)) (known : Params) (levels : table) : Prop :=
  forall n v, assoc (key C) known n = Some v -> exists k j, assoc (key C) levels n = Some k /\ Z.of_nat j <= k <= 5 /\ @const_is known C D n j v.
Lemma const_more D (known : Params) n0 v0 : assoc (key C) known n0 = None -> forall n j v, @const_is known C D n j v -> @const_is ((n0, v0) :: known) C D n j v.
Proof.
  intros N n j v. induction 1 as [n d w1 te w2 e need vals v Ec Ed NL NF Da Dc B1 W B2 Pl Hm IH Hv].
  apply (Const (Cs := (n0, v0) :: known) C D n d w1 te w2 e need vals v); auto.
  unfold consts in *. rewrite assoc_cons. destruct (eqbl (key C n) (key C n0)) eqn:E; [|exact Ec]. apply eqbl_eq in E. rewrite (assoc_key C known n n0) in Ec by auto. congruence.
Qed.
Lemma fold_max_nonneg l : 0 <= fold_right Z.max 0 l.
Proof. induction l as [|x l IH]; cbn [fold_right]; lia. Qed.
Lemma max_names (f : text -> Z) l m : In m l -> f m <= fold_right Z.max 0 (map f l).
Proof. induction l as [|x l IH]; [intros []|]. cbn [map fold_right]. intros [<-|I]; [lia|]. specialize (IH I). lia. Qed.
Lemma values_known D : forall l (known : Params) levels ks, values (c_wrap C) (key C) known levels l = Some ks -> levels_ok D known levels ->
  Forall (fun i => match i with IMacro _ | IShort _ => True | IConst c => eqbl (key C (v_name c)) (zs "__LINE") = false /\ eqbl (key C (v_name c)) (zs "__FILE") = false end) l ->
  (forall i, In i l -> exists d, tfind (key C (item_name i)) D = Some d /\ item_kept i d) -> distinct (key C) (map item_name l) = true ->
  (forall i, In i l -> assoc (key C) known (item_name i) = None) -> exists levels', levels_ok D ks levels'.
Proof.
  induction l as [|i l IH]; intros known levels ks V Lo Oi Hd Di Nk; [injection V as <-; eauto|].
  cbn [map distinct] in Di. apply andb_true_iff in Di as (Di & Di'). rewrite forallb_forall in Di. inversion Oi as [|? ? O1 O2]; subst.
  destruct i as [q|c|o]; cbn [values] in V.
  { apply (IH known levels ks V Lo O2); auto; intros i I; [apply Hd|apply Nk]; now right. }
  2:{ apply (IH known levels ks V Lo O2); auto; intros i I; [apply Hd|apply Nk]; now right. }
  destruct (val (c_wrap C) (key C) 0 [] (v_expr c)) as [v|] eqn:Ev; [|discriminate V].
  match type of V with (if ?b then _ else _) = _ => destruct b eqn:Eb; [|discriminate V] end.
  apply andb_true_iff in Eb as (Eb & En). apply andb_true_iff in Eb as (Ef & Ek). apply Z.leb_le in Ek.
  set (k := level_of (key C) levels (v_expr c)) in *.
  pose proof (Nk _ (or_introl eq_refl)) as Nc. cbn [item_name] in Nc.
  apply (IH ((v_name c, v) :: known) ((v_name c, k) :: levels) ks V); auto.
  - intros n v1. rewrite !assoc_cons. destruct (eqbl (key C n) (key C (v_name c))) eqn:E.
    + apply eqbl_eq in E. symmetry in E. intros [= <-]. exists k.
      destruct (Hd _ (or_introl eq_refl)) as (d & Fd & Kp). cbn [item_name item_kept] in Fd, Kp. destruct Kp as (Da & w1 & te & w2 & Dc & B1 & W & B2 & Pl).
      set (vals := fun m => match assoc (key C) known m with Some x => x | None => 0 end).
      destruct (choose_need (fun m j => (exists k', assoc (key C) levels m = Some k' /\ Z.of_nat j <= k' <= 5) /\ @const_is known C D m j (vals m)) (names_of (v_expr c))) as (need & Hn).
      { intros m Im. rewrite forallb_forall in En. specialize (En m Im). destruct (assoc (key C) known m) as [x|] eqn:Ex; [|discriminate En].
        destruct (Lo m x Ex) as (k' & j & L1 & L2 & L3). exists j. split; [eauto|]. unfold vals. now rewrite Ex. }
      set (top := Z.to_nat (fold_right Z.max 0 (map (fun n => match assoc (key C) levels n with Some k => k | None => 0 end) (names_of (v_expr c))))).
      assert (Hb : forall m, In m (names_of (v_expr c)) -> (need m <= top)%nat).
      { intros m Im. destruct (Hn m Im) as ((k' & L1 & L2) & _). pose proof (max_names (fun n => match assoc (key C) levels n with Some k => k | None => 0 end) _ m Im) as Q. cbn beta in Q. rewrite L1 in Q. unfold top. lia. }
      set (need2 := fun m => Nat.min (need m) top).
      exists (S (wt need2 (v_expr c))). split; [reflexivity|]. split.
      * pose proof (proj2 (wt_most top need2 ltac:(intros m; unfold need2; lia)) (v_expr c)) as Q. pose proof (proj2 wt_nest (v_expr c)) as Qn.
        split; [|exact Ek]. unfold k, level_of. unfold top in Q. pose proof (fold_max_nonneg (map (fun n => match assoc (key C) levels n with Some k => k | None => 0 end) (names_of (v_expr c)))). lia.
      * destruct O1 as (NL & NF).
        apply (Const (Cs := (v_name c, v) :: known) C D n d w1 te w2 (v_expr c) need2 vals v); auto.
        -- unfold consts. rewrite assoc_cons, E, eqbl_refl. reflexivity.
        -- now rewrite <- E.
        -- rewrite <- E. now apply eqbl_neq.
        -- rewrite <- E. now apply eqbl_neq.
        -- intros m Hm. apply (proj2 (mentions_names m)) in Hm. unfold need2. rewrite Nat.min_l by now apply Hb. destruct (Hn m Hm) as (_ & Q). now apply const_more.
        -- intros here. rewrite (proj2 (value_fixed _ here 0 _) _ Ef). unfold val in Ev. destruct (value (c_wrap C) 0 (lookup (key C) []) (v_expr c)) as [x| |] eqn:Ex; try discriminate Ev. injection Ev as ->.
           rewrite <- Ex. apply (proj2 (value_names _ _ _ _)). apply Forall_forall. intros m Im. rewrite forallb_forall in En. specialize (En m Im). unfold vals, lookup, params. destruct (assoc (key C) known m); [reflexivity|discriminate En].
    + intros Hv1. destruct (Lo n v1 Hv1) as (k' & j & L1 & L2 & L3). exists k', j. split; [exact L1|]. split; [exact L2|]. now apply const_more.
  - intros i I. apply Hd. now right.
  - intros i I. rewrite assoc_cons. specialize (Di (item_name i) (in_map _ _ _ I)). cbn [item_name] in Di. apply negb_true_iff in Di. destruct (eqbl (key C (item_name i)) (key C (v_name c))) eqn:Q; [apply eqbl_eq in Q; rewrite Q, eqbl_refl in Di; discriminate Di|]. apply Nk. now right.
Qed.
(** The state after the header, with the constants known. *)
Lemma constants_good D ops (ks : Params) levels s : (forall w, ~ name_start (hd0 w) -> tfind (key C w) D = None) -> levels_ok D ks levels -> goodD D ops 1 [] 0 [] [] s -> @good lv dr ks [] ks C D ops 1 [] 0 [] [] s.
Proof.
  intros Dn Lo (K & A & So & Hh). split; [|split; [exact A|split; assumption]].
  destruct K; constructor; auto.
  - intros n. reflexivity.
  - intros n v Hv. destruct (Lo n v Hv) as (k & j & _ & B & Hc). exists j. split; [lia|exact Hc].
  - intros w Nw. destruct (assoc (key C) params w) as [v|] eqn:E; [|reflexivity]. destruct (Lo w v E) as (k & j & _ & _ & Hc). inversion Hc as [? d ? ? ? ? ? ? ? ? Fd]. rewrite (Dn w Nw) in Fd. discriminate Fd.
Qed.
End Definitions.
