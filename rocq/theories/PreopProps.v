(** Single preprocessor lines, for all states: [#comment] blocks, [#undef], and the lines that
    do nothing or are out of place (preop.cpp:31-263, 713-767). *)
From Coq Require Import String.
From Verif Require Import Base BaseProofs State MonadProofs UtilsModel ErrorsModel StorageModel StorageSpec StorageProofs ParserModel
  PreopModel PassOneModel DirectiveModel Knot MainModel Programs Validate UtilsSpec UtilsProofs PassTwoSpec ParserSpec ParserProofs MatchSpec
  AsmSpec AsmData AsmLine CondSpec CondSkip CondRun MacroRun.

(** ** #comment *)
(** What may stand between [#comment] and [#endcomment], line by line: lines in which no
    statement begins with a conditional directive or a closing parenthesis, and conditional
    blocks.  The word itself is not in them. *)
Definition line_of (q : text) : Prop := exists t cr, q = t ++ eol_text cr /\ no_break t.
Definition begins (w q : text) : Prop := exists indent v, q = indent ++ v /\ Forall blank indent /\ starts w v = true.
Definition free_of (w q : text) : Prop := forall a b, q = a ++ b -> starts w b = false.
Fixpoint prose (open : nat) (l : list text) : Prop :=
  match l with
  | [] => open = O
  | q :: l' =>
    line_of q /\ free_of (zs "#endcomment") q /\
    (calm true q = true /\ prose open l' \/
     calm false q = true /\
     (begins (zs "#if") q /\ prose (S open) l' \/
      open <> O /\ (begins (zs "#endif") q /\ prose (pred open) l' \/
                    (begins (zs "#else") q \/ begins (zs "#elif") q) /\ prose open l')))
  end.
(** The line that opens the comment can hold text as well, and so can the one that closes it. *)
Record comment := mkcomment { c_indent : text; c_word : text; c_text : text; c_lines : list text; c_end_indent : text; c_end_word : text; c_rest : text }.
Definition comment_text (c : comment) : text :=
  (c_indent c ++ 35 :: c_word c ++ c_text c) ++ List.concat (c_lines c) ++ (c_end_indent c ++ 35 :: c_end_word c ++ c_rest c).
Definition after_word (q : text) : Prop := line_of q /\ isspace (hd0 q) = true.
Definition comment_ok (c : comment) : Prop :=
  Forall blank (c_indent c) /\ eqbl_ci (c_word c) (zs "comment") = true /\ after_word (c_text c) /\ calm true (c_text c) = true /\
  free_of (zs "#endcomment") (c_text c) /\ prose 0 (c_lines c) /\
  Forall blank (c_end_indent c) /\ eqbl_ci (c_end_word c) (zs "endcomment") = true /\ after_word (c_rest c) /\ calm false (c_rest c) = true.

Lemma begins_directive w q : line_of q -> begins (35 :: w) q -> calm false q = true -> exists v, directive q v /\ starts (35 :: w) (35 :: v) = true.
Proof.
  intros L (ind & v & E & B & S) Cm. destruct v as [|c v]; [discriminate|]. assert (c = 35) as ->.
  { cbn [starts eqbl_ci] in S. apply andb_true_iff in S as (S & _). rewrite andb_true_r in S. apply Z.eqb_eq in S. change (tolower 35) with 35 in S.
    unfold tolower, isupper in S. destruct ((65 <=? c) && (c <=? 90)) eqn:?; lia. }
  exists v. split; [|exact S]. split; [exact L|]. split; [exact Cm|]. subst q. split.
  - intros more. rewrite <- app_assoc, skip_ws_app by exact B. cbn [app]. apply skip_ws_nonblank. unfold blank. lia.
  - destruct L as (t & cr & L & _). destruct (eol_last cr) as (u & Eu). rewrite Eu, app_assoc in L.
    destruct (exists_last (l := 35 :: v) ltac:(discriminate)) as (x & y & Ex). rewrite Ex in L. rewrite app_assoc in L. apply app_inj_tail in L as (_ & ->). exists x. exact Ex.
Qed.
Lemma starts_other w k v : starts w v = true -> existsb (fun i => negb (tolower (nth i w 0) =? tolower (nth i k 0))) (seq 0 (Nat.min (length w) (length k))) = true -> starts k v = false.
Proof.
  revert k v. induction w as [|c w IH]; intros [|d k] v S D; try discriminate; try (cbn in D; rewrite Nat.min_0_r in D; discriminate).
  destruct v as [|x v]; [discriminate|]. cbn [starts eqbl_ci] in *. apply andb_true_iff in S as (S1 & S2). rewrite andb_true_r in S1.
  cbn [length Nat.min seq existsb nth] in D. apply orb_true_iff in D as [D|D].
  - replace (tolower d =? tolower x) with false by lia. reflexivity.
  - rewrite (IH k v S2), andb_false_r; [reflexivity|]. rewrite <- seq_shift, existsb_exists in D. destruct D as (i & I & D). apply in_map_iff in I as (j & <- & J). apply existsb_exists. exists j. split; [exact J|exact D].
Qed.

Section Comment.
Variable C : cfg.
Variable m : nat.
Notation R := (knot C m).
Notation words := [zs "#endcomment"].
Notation lacks := (free_of (zs "#endcomment")).
Lemma lacks_parts a b : lacks (a ++ b) -> lacks a /\ lacks b.
Proof.
  intros H. split; intros x y ->; [|now apply (H (a ++ x)), app_assoc]. 
  specialize (H x (y ++ b)). rewrite <- app_assoc in H. specialize (H eq_refl).
  destruct (starts (zs "#endcomment") y) eqn:S; [|reflexivity]. rewrite <- H. symmetry. clear -S. revert S. generalize (zs "#endcomment") as w. intros w. revert y.
  induction w as [|c w IH]; intros [|d y] S; try discriminate; [reflexivity..|]. cbn [app starts] in *. apply andb_true_iff in S as (-> & S). now rewrite (IH _ S).
Qed.
Lemma words_ok : forall w, In w words -> In w stop_words \/ (one_line w = true /\ forall v, lacks v -> starts w v = false).
Proof. intros w [<-|[]]. right. split; [reflexivity|]. intros v H. now apply (H []). Qed.

(** The lines are passed over one by one. *)
Lemma prose_passed s1 : s_erroc s1 = false -> forall l open ln more f, prose open l -> (S (length (List.concat l)) < f_n R)%nat -> (length l < f)%nat ->
  skip_until_loop R f true words (Z.of_nat open) ln (List.concat l ++ more) s1 = skip_until_loop R (f - length l) true words 0 (ln + Z.of_nat (length l)) more s1.
Proof.
  intros Ne. induction l as [|q l IH]; intros open ln more f P Lf Lg.
  { cbn in P. subst open. cbn [List.concat app length]. now rewrite Nat.sub_0_r, Z.add_0_r. }
  destruct f as [|f]; [cbn in Lg; lia|]. cbn [List.concat] in Lf. rewrite app_length in Lf. cbn [List.concat length Nat.sub]. rewrite <- app_assoc.
  replace (ln + Z.of_nat (S (length l))) with ((ln + 1) + Z.of_nat (length l)) by lia. cbn [length] in Lg.
  destruct P as (L & La & [(Cm & P)|(Cm & [(B & P)|(No & [(B & P)|(B & P)])])]).
  - rewrite (skip_calm R words lacks lacks_parts words_ok s1 Ne true _ ln q _ f L La Cm) by lia. apply IH; [exact P|lia|lia].
  - destruct (begins_directive (zs "if") q L B Cm) as (v & D & S). rewrite (skip_if R words lacks lacks_parts words_ok s1 Ne true _ ln q v _ f La D S) by lia.
    replace (Z.of_nat open + 1) with (Z.of_nat (Datatypes.S open)) by lia. apply IH; [exact P|lia|lia].
  - destruct (begins_directive (zs "endif") q L B Cm) as (v & D & S).
    rewrite (skip_endif R words lacks lacks_parts words_ok s1 Ne true _ ln q v _ f La D) by (first [lia|exact S|eapply starts_other; [exact S|reflexivity]]).
    replace (Z.of_nat open - 1) with (Z.of_nat (pred open)) by lia. apply IH; [exact P|lia|lia].
  - assert (X : exists v, directive q v /\ starts (zs "#if") (35 :: v) = false /\ starts (zs "#endif") (35 :: v) = false).
    { destruct B as [B|B]; [destruct (begins_directive (zs "else") q L B Cm) as (v & D & S)|destruct (begins_directive (zs "elif") q L B Cm) as (v & D & S)]; exists v; (split; [exact D|]);
        split; (eapply starts_other; [exact S|reflexivity]). }
    destruct X as (v & D & S1 & S2). rewrite (skip_mid R words lacks lacks_parts words_ok s1 Ne true _ ln q v _ f La D S1 S2) by lia. apply IH; [exact P|lia|lia].
Qed.
End Comment.

(** The whole block: the pass goes on after it in the same state, with the line number that
    the text has. *)
Lemma same_sess s : set_sess (s_sess s) s = s.
Proof. now destruct s. Qed.
Lemma same_errs s : set_errs (s_errs s) s = s.
Proof. now destruct s. Qed.
Definition line_count (c : comment) : Z := Z.of_nat (length (c_lines c)) + 2.
Definition quiet_sessions (s : st) : Prop := Forall (fun e => e_sess e <= s_sess s) (s_errs s).
Lemma skipped_quietly R words p r s ln : quiet_sessions s ->
  skip_until R true words p (set_sess (s_sess s + 1) s) = Ok r (set_line ln (set_sess (s_sess s + 1) s)) ->
  skip_quiet R words p s = Ok r (set_line ln s).
Proof.
  intros Q E. unfold skip_quiet, start_session. rewrite !bind_assoc, bind_get, bind_assoc, bind_upd, bind_ret.
  rewrite (bind_ok _ _ _ _ _ E). unfold end_session. rewrite !bind_assoc, bind_get. cbn [s_errs set_line set_sess].
  assert (U : unlead (s_sess s + 1) (s_errs s) = s_errs s /\ lead (s_sess s + 1) (s_errs s) = []).
  { unfold quiet_sessions in Q. destruct Q as [|e l H _]; [now split|]. cbn. replace (e_sess e =? s_sess s + 1) with false by lia. now split. }
  destruct U as (-> & ->). cbn [existsb]. rewrite andb_false_r. unfold bind, get, upd, ret. cbn [s_sess set_line set_sess set_errs].
  replace (s_sess s + 1 - 1) with (s_sess s) by lia. now destruct s.
Qed.
Lemma line_trim q : line_of q -> exists b v, q = b ++ v /\ Forall blank b /\ line_of v /\ forall more, skip_ws (q ++ more) = v ++ more.
Proof.
  intros (t & cr & -> & N). destruct (skip_ws_spec t) as (a & E & F & H). exists a, (skip_ws t ++ eol_text cr). split; [now rewrite app_assoc, <- E|]. split; [exact F|]. split.
  - exists (skip_ws t), cr. split; [reflexivity|]. rewrite E in N. unfold no_break in N. apply Forall_app in N. apply N.
  - intros more. rewrite <- !app_assoc. rewrite E at 1. rewrite <- app_assoc, skip_ws_app by exact F.
    destruct (skip_ws t) as [|c u] eqn:Es; [destruct cr; reflexivity|]. cbn [app]. apply skip_ws_nonblank. destruct H as [H|(c0 & t0 & H & Nb)]; [discriminate|]. injection H as -> _. exact Nb.
Qed.
Lemma word_alpha word k : eqbl_ci word k = true -> word_is word [k] = true.
Proof. intros H. unfold word_is. cbn. now rewrite H. Qed.

Lemma next_after_ws t : skip_to_next_line (skip_ws t) = skip_to_next_line t.
Proof.
  unfold skip_to_next_line. do 2 f_equal. destruct (skip_ws_spec t) as (a & E & B & _). rewrite E at 2. clear E. induction B as [|c a H B IH]; [reflexivity|].
  cbn [app to_line_break]. unfold blank in H. replace ((c =? 10) || (c =? 13)) with false by lia. exact IH.
Qed.

Theorem c63_comment : forall C m s c more f, comment_ok c -> s_erroc s = false -> quiet_sessions s ->
  (S (length (comment_text c ++ more)) < m)%nat ->
  pass_loop (knot C (S (S m))) (S f) (comment_text c ++ more) s = pass_loop (knot C (S (S m))) f more (set_line (s_line s + line_count c) s).
Proof.
  intros C m s c more f (B1 & W1 & (L1 & S1) & Cm1 & La1 & Pr & B2 & W2 & (L2 & S2) & Cm2) Ne Q Lm.
  destruct (line_trim _ L1) as (b & v & Ev & Bv & Lv & Sv).
  set (close := c_end_indent c ++ 35 :: c_end_word c ++ c_rest c).
  set (body := List.concat (c_lines c)).
  assert (Dc : directive close (c_end_word c ++ c_rest c)).
  { apply (directive_line _ _ _ [zs "endcomment"]); [exact B2|now apply word_alpha|repeat constructor|exact L2|exact Cm2]. }
  assert (Lc : skip_to_next_line (close ++ more) = more) by (apply lineish_next; apply Dc).
  set (x := c_text c ++ body ++ close ++ more).
  destruct (preop_word (c_word c) [zs "comment"] x P_COMMENT) as (E1 & E2 & E3).
  { now apply word_alpha. }
  { constructor; [now split|constructor]. }
  { unfold x. destruct (c_text c); [discriminate|exact S1]. }
  assert (Sk : skip_until (knot C m) true [zs "#endcomment"] (v ++ body ++ close ++ more) (set_sess (s_sess s + 1) s)
     = Ok (close ++ more) (set_line (s_line s + 1 + Z.of_nat (length (c_lines c))) (set_sess (s_sess s + 1) s))).
  { unfold skip_until. rewrite bind_get. cbn [s_line set_sess].
    assert (Lt : (length (v ++ body ++ close ++ more) <= length (comment_text c ++ more))%nat).
    { unfold comment_text. fold close body. rewrite Ev. rewrite !app_length. cbn [length]. rewrite !app_length. lia. }
    assert (Fn : f_n (knot C m) = m) by (destruct m; reflexivity).
    assert (Lb : (length (c_lines c) <= length body)%nat).
    { unfold body. clear -Pr. revert Pr. generalize O as n. induction (c_lines c) as [|q l IH]; intros n P; [cbn; lia|]. cbn [List.concat length]. rewrite app_length.
      destruct P as ((t & cr & -> & _) & _ & P). rewrite app_length. assert (exists n', prose n' l) as (n' & P').
      { destruct P as [(_ & P)|(_ & [(_ & P)|(_ & [(_ & P)|(_ & P)])])]; eauto. }
      specialize (IH n' P'). destruct cr; cbn [eol_text length]; lia. }
    rewrite Ev in La1, Cm1.
    rewrite (skip_calm (knot C m) [zs "#endcomment"] (free_of (zs "#endcomment")) lacks_parts words_ok (set_sess (s_sess s + 1) s) Ne true 0 (s_line s) v (body ++ close ++ more));
      [|exact Lv|now apply lacks_parts in La1|now apply (calm_blanks b v true)|rewrite Fn; rewrite app_length in Lt; lia].
    change 0 with (Z.of_nat 0) at 1. unfold body at 1. rewrite (prose_passed C m (set_sess (s_sess s + 1) s) Ne _ _ _ _ _ Pr); [|rewrite Fn; fold body; assert (length body <= length (v ++ body ++ close ++ more))%nat by (rewrite !app_length; lia); lia|].
    2:{ assert (0 < length v)%nat by (destruct Lv as (t & cr & -> & _); rewrite app_length; destruct cr; cbn [eol_text length]; lia). fold body. rewrite !app_length. lia. }
    fold body. rewrite !app_length. destruct (length v + _ - _)%nat as [|g] eqn:Eg.
    { exfalso. assert (0 < length v)%nat by (destruct Lv as (t & cr & -> & _); rewrite app_length; destruct cr; cbn [eol_text length]; lia). lia. }
    rewrite (skip_stop (knot C m) [zs "#endcomment"] (free_of (zs "#endcomment")) lacks_parts words_ok (set_sess (s_sess s + 1) s) Ne true _ close (c_end_word c ++ c_rest c) more g Dc).
    - reflexivity.
    - rewrite (starts_ci _ _ _ _ W2). reflexivity.
    - cbn [existsb]. rewrite (starts_ci _ _ _ _ W2). reflexivity.
    - rewrite Fn. lia. }
  assert (Hp : handle_preop C (knot C m) (c_word c ++ x) s = Ok (Some (close ++ more)) (set_line (s_line s + 1 + Z.of_nat (length (c_lines c))) s)).
  { unfold handle_preop. rewrite E1, E2, E3. unfold x. rewrite Sv. rewrite (bind_ok _ _ _ _ _ (skipped_quietly _ _ _ _ _ _ Q Sk)). reflexivity. }
  assert (Tx : comment_text c ++ more = (c_indent c ++ 35 :: c_word c) ++ x).
  { unfold comment_text, x, close, body. rewrite <- !app_assoc. cbn [app]. rewrite <- !app_assoc. reflexivity. }
  rewrite Tx.
  assert (E : f_line (knot C (S (S m))) ((c_indent c ++ 35 :: c_word c) ++ x) s = Ok (Some (skip_ws (close ++ more))) (set_line (s_line s + 1 + Z.of_nat (length (c_lines c))) s)).
  { change (f_line (knot C (S (S m)))) with (line_loop C (knot C (S m)) (S m)). rewrite dir_line by exact B1. rewrite (bind_ok _ _ _ _ _ Hp). rewrite bind_get. cbn [s_erroc set_line]. rewrite Ne.
    destruct Dc as (_ & _ & Ed & _). rewrite Ed. reflexivity. }
  cbn [pass_loop]. rewrite bind_get, Ne.
  assert (Tn : exists c0 u, (c_indent c ++ 35 :: c_word c) ++ x = c0 :: u) by (destruct (c_indent c); cbn; eauto). destruct Tn as (c0 & u & Tn). rewrite Tn in *.
  rewrite (bind_ok _ _ _ _ _ E). unfold add_line. rewrite bind_assoc, bind_get, bind_upd. rewrite next_after_ws, Lc. f_equal. cbn [s_line set_line].
  unfold line_count. replace (s_line s + 1 + Z.of_nat (length (c_lines c)) + 1) with (s_line s + (Z.of_nat (length (c_lines c)) + 2)) by lia. reflexivity.
Qed.

(** A concrete case: prose with a backslash and a conditional in it. *)
Definition ex_comment : comment := mkcomment (zs " ") (zs "Comment") (zs " see below" ++ [10])
  [zs "the loop ; ends \ when a is 0" ++ [13; 10]; zs "#if debug" ++ [10]; zs " #else here" ++ [10]; zs "#ENDIF" ++ [10]; [10]] [] (zs "endcomment") (zs " ; over" ++ [13; 10]).
Lemma free_dec w q : (fix go (q : text) : bool := negb (starts w q) && match q with [] => true | _ :: q' => go q' end) q = true -> free_of w q.
Proof.
  intros H a. revert q H. induction a as [|c a IH]; intros q H b ->.
  - cbn [app] in H. destruct b; apply andb_true_iff in H as (H & _); now apply negb_true_iff in H.
  - apply andb_true_iff in H as (_ & H). now apply (IH (a ++ b)).
Qed.
Lemma line_dec t cr : forallb (fun c => negb (c =? 10) && negb (c =? 13)) t = true -> line_of (t ++ eol_text cr).
Proof. intros H. exists t, cr. split; [reflexivity|]. apply Forall_forall. intros c I. rewrite forallb_forall in H. specialize (H c I). lia. Qed.
Example c63_case : comment_ok ex_comment /\ line_count ex_comment = 7.
Proof.
  split; [|reflexivity]. unfold comment_ok, ex_comment. cbn [c_indent c_word c_text c_lines c_end_indent c_end_word c_rest].
  assert (Bl : Forall blank (zs " ")) by (repeat constructor; unfold blank; vm_compute; intuition).
  split; [exact Bl|]. split; [reflexivity|]. split; [split; [now apply (line_dec (zs " see below") false)|reflexivity]|]. split; [reflexivity|]. split; [now apply free_dec|]. split.
  - split; [now apply (line_dec (zs "the loop ; ends \ when a is 0") true)|]. split; [now apply free_dec|]. left. split; [reflexivity|].
    split; [now apply (line_dec (zs "#if debug") false)|]. split; [now apply free_dec|]. right. split; [reflexivity|]. left. split.
    { exists [], (zs "#if debug" ++ [10]). split; [reflexivity|]. split; [constructor|reflexivity]. }
    split; [now apply (line_dec (zs " #else here") false)|]. split; [now apply free_dec|]. right. split; [reflexivity|]. right. split; [discriminate|]. right. split.
    { left. exists (zs " "), (zs "#else here" ++ [10]). split; [reflexivity|]. split; [exact Bl|reflexivity]. }
    split; [now apply (line_dec (zs "#ENDIF") false)|]. split; [now apply free_dec|]. right. split; [reflexivity|]. right. split; [discriminate|]. left. split.
    { exists [], (zs "#ENDIF" ++ [10]). split; [reflexivity|]. split; [constructor|reflexivity]. }
    split; [now apply (line_dec [] false)|]. split; [now apply free_dec|]. left. split; [reflexivity|]. reflexivity.
  - split; [constructor|]. split; [reflexivity|]. split; [split; [now apply (line_dec (zs " ; over") true)|reflexivity]|reflexivity].
Qed.
Print Assumptions c63_comment.
(** Without its [#endif], a line of the comment that begins with [#if] takes the end of the
    comment for part of the block. *)
Theorem c63_open_if_refuted :
  Validate.assemble 100 [] (prog ["#comment"; "#if you like"; "#endcomment"; " .db 1"]%string) = Some (0, Some [], []).
Proof. vm_compute. reflexivity. Qed.
Print Assumptions c63_open_if_refuted.

(** ** #undef *)
(** After [#undef name] that name is not a define, and everything else is as before. *)
Theorem c64_undef : forall C n s word gap name rest, (eqbl_ci word (zs "undef") = true \/ eqbl_ci word (zs "undefine") = true) -> gap_ok gap ->
  name <> [] -> Forall ParserSpec.name_char name -> is_name_char (hd0 rest) = false -> table_ok (s_defines s) ->
  exists D, handle_preop C (knot C n) (word ++ gap ++ name ++ rest) s = Ok (Some rest) (set_defines D s) /\ table_ok D /\
    forall k, tfind (key C k) D = if same_name (c_case C) k name then None else tfind (key C k) (s_defines s).
Proof.
  intros C n s word gap name rest W (Ng & Gb) Nn F Hr T.
  destruct (preop_word word [zs "undef"; zs "undefine"] (gap ++ name ++ rest) P_UNDEF) as (E1 & E2 & E3).
  { unfold word_is. cbn [existsb]. destruct W as [-> | ->]; [reflexivity|]. now rewrite orb_true_r. }
  { repeat (constructor; [now split|]). constructor. }
  { destruct gap as [|c gap]; [congruence|]. inversion Gb; subst. cbn [app hd0]. now apply (blank_space c). }
  assert (Nc : exists c t, name = c :: t /\ is_name_char c = true).
  { destruct name as [|c t]; [congruence|]. inversion F; subst. exists c, t. split; [reflexivity|]. now apply name_char_iff. }
  exists (tdel (key C name) (s_defines s)). split; [|split; [now apply tdel_ok|]].
  - unfold handle_preop. rewrite E1, E2, E3. rewrite skip_ws_app by exact Gb. destruct Nc as (c & t & -> & Nc).
    assert (Sk : skip_ws ((c :: t) ++ rest) = (c :: t) ++ rest).
    { cbn [app]. apply skip_ws_nonblank. intros B. unfold blank in B. destruct B as [->|[->|[->| ->]]]; discriminate. }
    rewrite Sk. assert (Ie : is_eol ((c :: t) ++ rest) = false).
    { cbn [app]. unfold is_eol. destruct (_ || _ || _ || _) eqn:Q; [exfalso|reflexivity]. assert (X : c = 10 \/ c = 13 \/ c = 59 \/ c = 92) by lia. destruct X as [->|[->|[->| ->]]]; discriminate Nc. }
    rewrite Ie, skip_name_app by assumption. rewrite seg_app. unfold remove_define. rewrite bind_assoc, bind_get, bind_upd. reflexivity.
  - intros k. rewrite same_name_key. now apply tfind_tdel.
Qed.
(** A concrete case. *)
Definition ex_conf : cfg := mkconf (world_of []) args0.
Definition ex_defs : st := set_defines [(zs "A", mkdefine (zs "A") 1 [] (Some (zs "1")) []); (zs "B", mkdefine (zs "B") 2 [] (Some (zs "2")) [])] (init_state false [] [] []).
Example c64_case : table_ok (s_defines ex_defs) /\ tfind (key ex_conf (zs "a")) (s_defines ex_defs) <> None /\
  handle_preop ex_conf (knot ex_conf 3) (zs "Undef a ; gone") ex_defs = Ok (Some (zs " ; gone")) (set_defines [(zs "B", mkdefine (zs "B") 2 [] (Some (zs "2")) [])] ex_defs).
Proof. split; [repeat constructor|]. split; [discriminate|vm_compute; reflexivity]. Qed.
Print Assumptions c64_undef.

(** ** Lines without effect, and lines out of place *)
(** The pass after one preprocessor line. *)
Lemma dir_step C m indent v rest more s f q s1 : Forall blank indent -> s_erroc s = false ->
  handle_preop C (knot C m) ((v ++ rest) ++ more) s = Ok (Some q) s1 -> s_erroc s1 = false -> hd0 (skip_ws q) <> 92 ->
  pass_loop (knot C (S (S m))) (S f) ((indent ++ 35 :: v ++ rest) ++ more) s = pass_loop (knot C (S (S m))) f (skip_to_next_line q) (set_line (s_line s1 + 1) s1).
Proof.
  intros B Ne Hp Ne1 Nq.
  assert (E : f_line (knot C (S (S m))) ((indent ++ 35 :: v ++ rest) ++ more) s = Ok (Some (skip_ws q)) s1).
  { change (f_line (knot C (S (S m)))) with (line_loop C (knot C (S m)) (S m)). rewrite dir_line by exact B. rewrite (bind_ok _ _ _ _ _ Hp). rewrite bind_get, Ne1. replace (hd0 (skip_ws q) =? 92) with false by lia. reflexivity. }
  assert (Tn : exists c u, (indent ++ 35 :: v ++ rest) ++ more = c :: u) by (destruct indent; cbn; eauto). destruct Tn as (c & u & Tn). rewrite Tn in *.
  cbn [pass_loop]. rewrite bind_get, Ne. rewrite (bind_ok _ _ _ _ _ E). unfold add_line. rewrite bind_assoc, bind_get, bind_upd. rewrite next_after_ws. reflexivity.
Qed.
(** [#region], [#endregion], and [#endcomment] and [#endmacro] where nothing is open, with
    any text behind them that does not begin with a backslash, only count as a line. *)
Definition no_op_words : list text := [zs "region"; zs "endregion"; zs "endcomment"; zs "endmacro"].
Theorem c65_nothing : forall C m s kw word indent rest more f, In kw no_op_words -> eqbl_ci word kw = true -> Forall blank indent -> after_word rest ->
  hd0 (skip_ws rest) <> 92 -> s_erroc s = false ->
  pass_loop (knot C (S (S m))) (S f) ((indent ++ 35 :: word ++ rest) ++ more) s = pass_loop (knot C (S (S m))) f more (set_line (s_line s + 1) s).
Proof.
  intros C m s kw word indent rest more f K W B (L & Sp) N92 Ne. destruct (line_trim _ L) as (b & v & Ev & Bv & Lv & Sv).
  assert (Hp : handle_preop C (knot C m) ((word ++ rest) ++ more) s = Ok (Some (v ++ more)) s).
  { rewrite <- app_assoc. assert (X : exists o, (o = P_REGION \/ o = P_ENDCOMMENT \/ o = P_ENDMACRO) /\ Forall (fun k => forallb isalpha k = true /\ find_ci k preops = Some o) [kw]).
    { destruct K as [<-|[<-|[<-|[<-|[]]]]]; eexists; (split; [|repeat constructor]); auto. }
    destruct X as (o & Ho & Fo). destruct (preop_word word [kw] (rest ++ more) o) as (E1 & E2 & E3); [now apply word_alpha|exact Fo|destruct rest; [discriminate|exact Sp]|].
    unfold handle_preop. rewrite E1, E2, E3, Sv. destruct Ho as [->|[->| ->]]; reflexivity. }
  rewrite (dir_step C m indent word rest more s f _ s B Ne Hp Ne).
  - rewrite (lineish_next v more Lv). reflexivity.
  - rewrite <- Sv. destruct (skip_ws_spec (rest ++ more)) as (a & E & F & [H|(c & t & H & Nb)]); [rewrite H; discriminate|].
    rewrite H. rewrite (skip_ws_nonblank _ _ Nb). cbn [hd0]. rewrite Sv in H. specialize (Sv []). rewrite !app_nil_r in Sv. rewrite Sv in N92. destruct Lv as (t' & cr & -> & _).
    destruct t', cr; cbn in H, N92; injection H as <- _; exact N92.
Qed.
(** A concrete case. *)
Example c65_case : let rest := zs " first part of 2 ; names" ++ [10] in after_word rest /\ hd0 (skip_ws rest) <> 92 /\ eqbl_ci (zs "Region") (zs "region") = true.
Proof. split; [split; [now apply (line_dec (zs " first part of 2 ; names") false)|reflexivity]|]. split; [vm_compute; discriminate|reflexivity]. Qed.
Print Assumptions c65_nothing.

(** A word that is none of the preprocessor's is an error.  ([#else] and [#endif] out of place:
    C33.) *)
Definition known_words : list text :=
  [zs "define"; zs "include"; zs "if"; zs "ifdef"; zs "ifndef"; zs "else"; zs "elif"; zs "endif"; zs "undef"; zs "undefine"; zs "comment"; zs "endcomment";
   zs "macro"; zs "endmacro"; zs "import"; zs "defcont"; zs "region"; zs "endregion"].
Theorem c66_unknown : forall C n s word rest, Forall (fun c => isspace c = false) word -> existsb (fun k => eqbl_ci k word) known_words = false ->
  isspace (hd0 rest) = true ->
  handle_preop C (knot C n) (word ++ rest) s = Ok (Some (skip_ws rest)) (noted false SPASM_ERR_UNKNOWN_PREOP s).
Proof.
  intros C n s word rest F K Sp. unfold handle_preop.
  assert (E1 : skip_nonspace (word ++ rest) = rest).
  { clear K. induction F as [|c w H F IH]; [|cbn [app skip_nonspace]; now rewrite H]. cbn [app]. destruct rest as [|c r]; [discriminate|]. cbn in *. now rewrite Sp. }
  assert (E2 : find_ci word preops = None).
  { clear -K. unfold preops. unfold known_words in K. cbn [existsb] in K. cbn [find_ci].
    repeat match goal with H : _ || _ = false |- _ => apply orb_false_iff in H as (?X & H) end.
    repeat match goal with H : eqbl_ci _ word = false |- _ => rewrite H; clear H end. reflexivity. }
  rewrite E1, seg_app, E2. reflexivity.
Qed.
(** Such an error in the session of the first pass ends the assembler with status 3. *)
Theorem c66_fatal : forall s, s_sess s = 1 ->
  end_session 1 (noted false SPASM_ERR_UNKNOWN_PREOP s) = Exit 3 (set_sess 0 (set_errs (unlead 1 (s_errs s)) s)).
Proof.
  intros s H. unfold end_session, noted. rewrite bind_get, bind_get, bind_upd, bind_upd. cbn [s_errs set_errs lead unlead e_sess s_sess]. rewrite H. reflexivity.
Qed.
Example c66_case : existsb (fun k => eqbl_ci k (zs "elsif")) known_words = false /\
  Validate.assemble 100 [] (prog ["#elsif 1"]%string) = Some (3, None, [SPASM_ERR_UNKNOWN_PREOP]).
Proof. split; vm_compute; reflexivity. Qed.
Print Assumptions c66_unknown.
Print Assumptions c66_fatal.
