(** Values a directive cannot take: the error is recorded and nothing else changes
    (directive.cpp:73-139, 361-376, 457-479). *)
From Coq Require Import String.
From Verif Require Import Programs.
From Verif Require Import Base BaseProofs State MonadProofs UtilsModel ErrorsModel StorageModel ParserModel PassTwoModel
  PreopModel PassOneModel DirectiveModel Knot MainModel Validate UtilsSpec UtilsProofs UtilsProps StorageProofs PassTwoSpec PassTwoProofs
  ParserSpec ParserProofs ParserProps StringProps InstrSpec MatchSpec MatchProps AsmSpec AsmExpand AsmProofs AsmData DirProps.

(** Evaluating an expression resets the depth of the macros under way and the mark of a name not
    known yet; that is all. *)
Definition evaluated (s : st) : st := set_depth 0 (set_fwd false s).

Lemma text_not_blank w : written_ok (P := no_params) w -> skip_ws (w_text w) = w_text w /\ w_text w <> [].
Proof.
  intros W. destruct (written_operand (Pm := no_params) [] w (or_introl eq_refl) W) as (l & El & (_ & _ & _ & (c & t & E & H) & _)).
  unfold operand_text in E. cbn [o_body] in E. rewrite El in E. rewrite E. split; [now apply skip_ws_nonblank|discriminate].
Qed.

(** .org moves to an address that is not negative, and refuses any other. *)
Theorem c82_org : forall C n s word gap w v rest, (20 <= n)%nat -> word_of word (zs "org") -> gap_ok gap -> line_over rest -> stands_for C s w v ->
  handle_directive C (knot C n) (word ++ gap ++ wr w ++ rest) s =
  Ok (Some rest) (if v <? 0 then noted false SPASM_ERR_INVALID_ADDRESS (evaluated s) else set_pc v (evaluated s)).
Proof.
  intros C n s word gap w v rest Hn W G Ov S. destruct (text_not_blank w (proj1 S)) as (T1 & T2). dispatch. rewrite skip_ws_app by apply G.
  unfold dir_org. rewrite bind_assoc. unfold bind at 1. rewrite read_skip, (read_written (Pm := no_params) [] w rest s); [|auto|apply S|auto].
  cbn [rx_word rx_ptr rx_ret]. rewrite !bind_assoc. rewrite (bind_ok _ _ _ _ _ (parse_stands C n s w v Hn S)). rewrite T1.
  destruct (w_text w); [contradiction T2; reflexivity|]. destruct (v <? 0); reflexivity.
Qed.
Theorem c82_org_empty : forall C n s word gap rest, word_of word (zs "org") -> gap_ok gap -> line_over rest ->
  handle_directive C (knot C n) (word ++ gap ++ rest) s = Ok (Some rest) (noted false SPASM_ERR_VALUE_EXPECTED s).
Proof.
  intros C n s word gap rest W G Ov. dispatch. rewrite skip_ws_app by apply G. rewrite (over_skip rest Ov).
  unfold dir_org. rewrite bind_assoc, (bind_ok _ _ _ _ _ (read_none rest s Ov)). reflexivity.
Qed.

(** .fill and .block refuse a negative count, whatever the value. *)
Theorem c82_fill : forall C n s word kw gap w wv m v rest, (20 <= n)%nat -> In kw [zs "fill"; zs "block"] -> word_of word kw -> gap_ok gap -> line_over rest ->
  stands_for C s w m -> match wv with Some w' => stands_for C s w' v | None => True end -> m < 0 ->
  handle_directive C (knot C n) (word ++ gap ++ wr w ++ match wv with Some w' => 44 :: wr w' | None => [] end ++ rest) s =
  Ok (Some rest) (noted false SPASM_ERR_SIZE_MUST_BE_POSITIVE (evaluated s)).
Proof.
  intros C n s word kw gap w wv m v rest Hn Hk W G Ov S Sv Hm.
  set (b := wr w ++ match wv with Some w' => 44 :: wr w' | None => [] end ++ rest).
  assert (E : handle_directive C (knot C n) (word ++ gap ++ b) s = (r <- dir_fill (knot C n) (skip_ws (gap ++ b)) ;; ret (Some r)) s).
  { destruct Hk as [<-|[<-|[]]]; dispatch; reflexivity. }
  rewrite E. clear E. rewrite skip_ws_app by apply G. unfold b. clear b.
  unfold dir_fill. rewrite bind_assoc. unfold bind at 1. rewrite read_skip, (read_written (Pm := no_params) [44] w); [|now right|apply S|].
  2:{ destruct wv as [w'|]; [right; split; [reflexivity|]; eexists; reflexivity|left; exact Ov]. }
  cbn [rx_ret rx_word rx_ptr]. rewrite bind_assoc, (bind_ok _ _ _ _ _ (parse_stands C n s w m Hn S)). cbn [or0]. cbv zeta.
  fold (evaluated s). replace (m <? 0) with true by lia.
  destruct wv as [w'|].
  - cbn [app]. rewrite skip_ws_nonblank by (unfold UtilsSpec.blank; lia). unfold skip_char. cbn [hd0 tl Z.eqb Pos.eqb].
    rewrite bind_assoc, (bind_ok _ _ _ _ _ (read_written (Pm := no_params) [] w' rest (evaluated s) (or_introl eq_refl) (proj1 Sv) (or_introl Ov))). cbn [rx_ret rx_word rx_ptr].
    assert (S1 : stands_for C (evaluated s) w' v) by (apply (stands_calm C s); [right; reflexivity|exact Sv]).
    rewrite !bind_assoc. rewrite (bind_ok _ _ _ _ _ (parse_stands C n (evaluated s) w' v Hn S1)). reflexivity.
  - cbn [app]. rewrite (over_skip rest Ov). unfold skip_char. replace (hd0 rest =? 44) with false by (destruct (over_head rest Ov) as [->|H]; unfold line_ender in *; lia).
    rewrite bind_assoc, (bind_ok _ _ _ _ _ (read_none rest (evaluated s) Ov)). reflexivity.
Qed.

(** .equ gives the label before it the value, and no other label; it is an error without one. *)
Definition value_in (t : list (text * label)) (k : text) : option Z := option_map l_value (tfind k t).
Theorem c82_equ : forall C n s word gap w v rest, (20 <= n)%nat -> word_of word (zs "equ") -> gap_ok gap -> line_over rest -> stands_for C s w v ->
  let result := handle_directive C (knot C n) (word ++ gap ++ wr w ++ rest) s in
  match s_last_label s with
  | None => result = Ok (Some rest) (noted false SPASM_ERR_EQUATE_MISSING_LABEL (evaluated s))
  | Some k => value_in (s_labels s) k <> None -> exists t, result = Ok (Some rest) (set_labels t (evaluated s)) /\
      forall m, value_in t m = if eqbl m k then Some v else value_in (s_labels s) m
  end.
Proof.
  intros C n s word gap w v rest Hn W G Ov S result.
  assert (E : result = (match s_last_label s with None => set_error SPASM_ERR_EQUATE_MISSING_LABEL | Some k => set_label_value k v end ;;; ret (Some rest)) (evaluated s)).
  { unfold result. dispatch; rewrite skip_ws_app by apply G.
    unfold dir_equ; rewrite bind_assoc; unfold bind at 1; rewrite read_skip, (read_written (Pm := no_params) [] w rest s) by (auto; apply S).
    cbn [rx_word rx_ptr]; rewrite bind_assoc, (bind_ok _ _ _ _ _ (parse_stands C n s w v Hn S)); rewrite bind_assoc, bind_get.
    rewrite !bind_assoc, bind_get; cbn [s_last_label set_depth set_fwd or0]. unfold evaluated. destruct (s_last_label s); unfold bind, ret; [|reflexivity].
    destruct (set_label_value _ _ _); reflexivity. }
  destruct (s_last_label s) as [k|]; [|rewrite E; reflexivity]. intros Hk. unfold value_in in Hk. destruct (tfind k (s_labels s)) as [l|] eqn:El; [|now contradiction Hk].
  exists (tset k (mklabel (l_name l) (l_line l) (l_file l) v) (s_labels s)). split.
  - rewrite E. unfold set_label_value. rewrite bind_assoc, bind_get. cbn [evaluated s_labels set_depth set_fwd]. rewrite El. reflexivity.
  - intros m. unfold value_in. rewrite tfind_tset. now destruct (eqbl m k).
Qed.

(** .equ with an expression that has no value: the error is recorded.  If it is a label that is not
    known (262), the label before .equ keeps its value; after any other error it becomes 0. *)
Theorem c82_equ_error : forall C n s word gap w names code rest, (20 <= n)%nat -> word_of word (zs "equ") -> gap_ok gap -> line_over rest -> written_ok (P := no_params) w ->
  (forall m, mentions m (w_expr w) -> resolves C s names m) -> value (c_wrap C) (s_pc s) names (w_expr w) = Err code ->
  exists d, let s1 := noted false code (set_depth d (set_fwd (code =? 262) s)) in
  let result := handle_directive C (knot C n) (word ++ gap ++ wr w ++ rest) s in
  if code =? 262 then result = Ok (Some rest) s1
  else match s_last_label s with
  | None => result = Ok (Some rest) (noted false SPASM_ERR_EQUATE_MISSING_LABEL s1)
  | Some k => value_in (s_labels s) k <> None -> exists t, result = Ok (Some rest) (set_labels t s1) /\
      forall m, value_in t m = if eqbl m k then Some 0 else value_in (s_labels s) m
  end.
Proof.
  intros C n s word gap w names code rest Hn W G Ov Wo Rs V.
  pose proof Wo as (_ & Wt & _ & N & _). cbn in N.
  pose proof (c01_left_to_right C n s names (w_expr w) (w_text w) [] [] [] Wt (Forall_nil _) (Forall_nil _) (or_introl eq_refl) N ltac:(lia) Rs) as P.
  cbv zeta in P. rewrite V in P. cbn [app] in P. rewrite app_nil_r in P. destruct P as (d & P). exists d. cbv zeta. set (s1 := noted false code _) in *.
  assert (E : handle_directive C (knot C n) (word ++ gap ++ wr w ++ rest) s =
    (if code =? 262 then ret (Some rest) else match s_last_label s with None => set_error SPASM_ERR_EQUATE_MISSING_LABEL | Some k => set_label_value k 0 end ;;; ret (Some rest)) s1).
  { dispatch; rewrite skip_ws_app by apply G.
    unfold dir_equ; rewrite bind_assoc; unfold bind at 1; rewrite read_skip, (read_written (Pm := no_params) [] w rest s) by (auto; exact Wo).
    cbn [rx_word rx_ptr]; rewrite bind_assoc, (bind_ok _ _ _ _ _ P); rewrite bind_assoc, bind_get.
    change (s_fwd s1) with (code =? 262). destruct (code =? 262); [reflexivity|].
    rewrite !bind_assoc, bind_get. change (s_last_label s1) with (s_last_label s). cbn [or0]. destruct (s_last_label s); unfold bind, ret; [|reflexivity].
    destruct (set_label_value _ _ _); reflexivity. }
  rewrite E. destruct (code =? 262); [reflexivity|]. destruct (s_last_label s) as [k|]; [|reflexivity].
  intros Hk. unfold value_in in Hk. destruct (tfind k (s_labels s)) as [l|] eqn:El; [|now contradiction Hk].
  exists (tset k (mklabel (l_name l) (l_line l) (l_file l) 0) (s_labels s)). split.
  - unfold set_label_value. rewrite bind_assoc, bind_get. change (s_labels s1) with (s_labels s). rewrite El. reflexivity.
  - intros m. unfold value_in. rewrite tfind_tset. now destruct (eqbl m k).
Qed.
(** .assume knows no other name than ADL. *)
Theorem c82_assume : forall C n s word gap x b w v rest, (20 <= n)%nat -> word_of word (zs "assume") -> gap_ok gap -> line_over rest ->
  x <> [] -> Forall (fun c => MatchSpec.letter_or_digit c \/ c = 95) x -> ~ word_of x (zs "adl") -> Forall UtilsSpec.blank b -> stands_for C s w v -> zlen (x ++ b ++ 61 :: wr w) <= 254 ->
  handle_directive C (knot C n) (word ++ gap ++ x ++ b ++ 61 :: wr w ++ rest) s = Ok (Some rest) (noted false SPASM_ERR_INVALID_OPTION (evaluated s)).
Proof.
  intros C n s word gap x b w v rest Hn W G Ov Nx Fx Ax B S Ln.
  assert (Ac : Forall (fun c => ~ bracket c /\ ~ line_ender c /\ c <> 61 /\ ~ UtilsSpec.blank c) x).
  { eapply Forall_impl; [|exact Fx]. intros c H. unfold MatchSpec.letter_or_digit, bracket, line_ender, UtilsSpec.blank in *. lia. }
  destruct (written_operand (Pm := no_params) [] w (or_introl eq_refl) (proj1 S)) as (l & El & (B1 & B2 & Fl & Hd & Tl & _)). unfold operand_text in Hd, Tl.
  cbn [o_before o_after o_body] in *. rewrite El in *.
  assert (Bl : forall k, Forall UtilsSpec.blank k -> Forall (fun c => ~ bracket c /\ ~ line_ender c /\ ~ In c []) k).
  { intros k F. eapply Forall_impl; [|exact F]. intros c H. unfold bracket, line_ender, UtilsSpec.blank in *. cbn. lia. }
  set (body := map PChar (x ++ b ++ 61 :: w_before w) ++ l).
  assert (Eb : pieces_text body = x ++ b ++ 61 :: w_before w ++ w_text w).
  { unfold body, pieces_text. rewrite flat_map_app. change (flat_map piece_text (map PChar (x ++ b ++ 61 :: w_before w))) with (pieces_text (map PChar (x ++ b ++ 61 :: w_before w))).
    rewrite name_pieces. change (flat_map piece_text l) with (pieces_text l). rewrite El, <- !app_assoc. reflexivity. }
  assert (Rd : read_expr (skip_ws (gap ++ x ++ b ++ 61 :: wr w ++ rest)) [] s = Ok (mkrx true rest (x ++ b ++ 61 :: w_before w ++ w_text w) false) s).
  { rewrite read_skip. pose proof (read_operand_gen [] (mkoperand gap body (w_after w)) rest) as Q. unfold operand_text in Q. cbn [o_before o_body o_after] in Q. rewrite Eb in Q.
    replace (gap ++ x ++ b ++ 61 :: wr w ++ rest) with (gap ++ (x ++ b ++ 61 :: w_before w ++ w_text w) ++ w_after w ++ rest).
    2:{ unfold wr. rewrite <- !app_assoc. cbn [app]. rewrite <- !app_assoc. reflexivity. }
    unfold read_expr, read_expr'. rewrite Q; [reflexivity|cbn; lia|right; cbn; easy| |right; now apply over_stops].
    unfold operand_okd, operand_text. cbn [o_before o_body o_after]. rewrite Eb. split; [apply G|]. split; [exact B2|]. split; [|split; [|split]].
    - unfold body. apply Forall_app. split; [|exact Fl]. apply chars_ok. rewrite !Forall_app. split; [|split; [now apply Bl|]].
      + eapply Forall_impl; [|exact Ac]. cbn. tauto.
      + constructor; [unfold bracket, line_ender; cbn; lia|now apply Bl].
    - destruct x as [|c t]; [contradiction Nx; reflexivity|]. eexists c, _. split; [reflexivity|]. inversion Ac; subst. tauto.
    - destruct Tl as (c & t & E & H). exists c, (x ++ b ++ 61 :: w_before w ++ t). split; [|exact H]. rewrite E, <- !app_assoc. cbn [app]. now rewrite <- !app_assoc.
    - unfold wr in Ln. rewrite !zlen_app, zlen_cons, !zlen_app in *. lia. }
  assert (Rn : read_expr (x ++ b ++ 61 :: w_before w ++ w_text w) (zs "=") s = Ok (mkrx true (61 :: w_before w ++ w_text w) x false) s).
  { pose proof (read_operand_gen (zs "=") (mkoperand [] (map PChar x) b) (61 :: w_before w ++ w_text w)) as Q. unfold operand_text in Q. cbn [o_before o_body o_after] in Q. rewrite name_pieces in Q. cbn [app] in Q.
    unfold read_expr, read_expr'. rewrite Q; [reflexivity|cbn; lia| | |left; right; eexists _, _; split; [reflexivity|cbn; auto]].
    - right. cbn. intros c [<-|[]]. unfold UtilsSpec.blank. lia.
    - unfold operand_okd, operand_text. cbn [o_before o_body o_after]. rewrite name_pieces. split; [constructor|]. split; [exact B|]. split; [|split; [|split]].
      + apply chars_ok. eapply Forall_impl; [|exact Ac]. intros c (H1 & H2 & H3 & H4). cbn. split; [exact H1|]. split; [exact H2|]. lia.
      + destruct x as [|c t]; [contradiction Nx; reflexivity|]. eexists c, _. split; [reflexivity|]. inversion Ac; subst. tauto.
      + destruct (exists_last Nx) as (t & c & E). rewrite E in *. exists c, t. split; [reflexivity|]. apply Forall_app in Ac as (_ & Ac). inversion Ac as [|? ? (H1 & H2 & H3 & H4) _]; subst.
        unfold line_ender in H2. split; [exact H4|lia].
      + rewrite !zlen_app, zlen_cons in Ln. pose proof (zlen_nonneg (wr w)). pose proof (zlen_nonneg b). lia. }
  assert (Pn : parse_num (knot C n) (w_before w ++ w_text w) s = Ok (Some v) (evaluated s)).
  { destruct S as ((_ & Wt & _ & N & _) & names & Rs & V). cbn in N.
    pose proof (c01_left_to_right C n s names (w_expr w) (w_text w) (w_before w) [] [] Wt B1 (Forall_nil _) (or_introl eq_refl) N ltac:(lia) Rs) as P.
    cbv zeta in P. rewrite V in P. cbn [app] in P. rewrite app_nil_r in P. exact P. }
  dispatch. unfold dir_assume. rewrite bind_assoc, (bind_ok _ _ _ _ _ Rd). cbn [rx_word rx_ptr]. rewrite bind_assoc, (bind_ok _ _ _ _ _ Rn). cbn [rx_word rx_ptr hd0 tl].
  change (61 =? 61) with true. cbn iota. rewrite bind_assoc, (bind_ok _ _ _ _ _ Pn).
  replace (eqbl_ci x (zs "adl")) with false by (symmetry; apply not_true_is_false; exact Ax). rewrite andb_false_r. reflexivity.
Qed.

(** Concrete cases: the expression of C01 with its value negated. *)
Definition neg_written : written := mkwritten [] (Single (Par Neg c01_expr)) (zs "-(2+ $03 *- (%100-lab))") (zs " ").
Lemma neg_stands C : c_case C = false -> stands_for C ex_state neg_written (-25).
Proof.
  intros Cc. destruct (ex_stands C Cc) as ((_ & _ & _ & _) & names & Rs & V). split.
  - split; [constructor|]. split.
    { apply W_single. apply (W_par Neg [] [] c01_expr (zs "2+ $03 *- (%100-lab)") []); [apply Forall_nil|discriminate|apply Forall_nil|exact c01_writes|apply Forall_nil]. }
    split; [repeat constructor; unfold UtilsSpec.blank; lia|]. split; [vm_compute; discriminate|vm_compute; discriminate].
  - exists c01_names. split; [|reflexivity]. intros m H. assert (E : zs "lab" = m) by (cbn [neg_written w_expr c01_expr mentions term_mentions] in H; tauto). subst m. unfold resolves, key. rewrite Cc.
    split; [reflexivity|]. exists (mklabel (zs "LAB") 1 [] 9). split; reflexivity.
Qed.
Example c82_case : handle_directive ex_conf (knot ex_conf 20) (zs "ORG -(2+ $03 *- (%100-lab)) ; no") ex_state = Ok (Some (zs "; no")) (noted false SPASM_ERR_INVALID_ADDRESS (evaluated ex_state)) /\
  handle_directive ex_conf (knot ex_conf 20) (zs "block -(2+ $03 *- (%100-lab)) ,2+ $03 *- (%100-lab) ; no") ex_state = Ok (Some (zs "; no")) (noted false SPASM_ERR_SIZE_MUST_BE_POSITIVE (evaluated ex_state)).
Proof.
  assert (G : gap_ok (zs " ")) by (split; [discriminate|]; repeat constructor; unfold UtilsSpec.blank; lia).
  assert (O : line_over (zs "; no")) by (right; exists 59; eexists; split; [reflexivity|]; unfold line_ender; lia).
  split.
  - exact (c82_org ex_conf 20 ex_state (zs "ORG") (zs " ") neg_written (-25) (zs "; no") (le_n 20) eq_refl G O (neg_stands ex_conf eq_refl)).
  - exact (c82_fill ex_conf 20 ex_state (zs "block") (zs "block") (zs " ") neg_written (Some ex_written) (-25) 25 (zs "; no") (le_n 20) (or_intror (or_introl eq_refl)) eq_refl G O
      (neg_stands ex_conf eq_refl) (ex_stands ex_conf eq_refl) eq_refl).
Qed.
Example c82_equ_case : let s := set_last_label (Some (zs "LAB")) ex_state in
  stands_for ex_conf s ex_written 25 /\ value_in (s_labels s) (zs "LAB") <> None /\
  match handle_directive ex_conf (knot ex_conf 20) (zs "equ 2+ $03 *- (%100-lab) ") s with Ok _ s' => value_in (s_labels s') (zs "LAB") = Some 25 | _ => False end.
Proof.
  cbv zeta. split; [exact (ex_stands ex_conf eq_refl)|]. split; [discriminate|]. vm_compute. reflexivity.
Qed.
(** Each of these errors ends the session of the pass, and with it the run, with status 3. *)
Theorem c82_ends : forall c s, In c [SPASM_ERR_INVALID_ADDRESS; SPASM_ERR_VALUE_EXPECTED; SPASM_ERR_SIZE_MUST_BE_POSITIVE; SPASM_ERR_EQUATE_MISSING_LABEL; SPASM_ERR_INVALID_OPTION] ->
  s_sess s = 1 -> end_session 1 (noted false c s) = Exit 3 (set_sess 0 (set_errs (unlead 1 (s_errs s)) s)).
Proof.
  intros c s Hc H. unfold end_session, noted. rewrite bind_get, bind_get, bind_upd, bind_upd. cbn [s_errs set_errs lead unlead e_sess s_sess]. rewrite H.
  cbn [In] in Hc. repeat (destruct Hc as [<-|Hc]; [reflexivity|]). destruct Hc.
Qed.
(** In whole programs: nothing is written. *)
Example c82_runs : Validate.assemble 100 [] (prog [" .db 1"; " .org -1"]%string) = Some (3, None, [263]) /\
  Validate.assemble 100 [] (prog [" .db 1"; " .org"]%string) = Some (3, None, [260]) /\
  Validate.assemble 100 [] (prog [" .db 1"; " .fill 2-3,7"]%string) = Some (3, None, [264]) /\
  Validate.assemble 100 [] (prog [" .db 1"; " .equ 2"]%string) = Some (3, None, [276]) /\
  Validate.assemble 100 [] (prog [" .db 1"; " .assume x=1"]%string) = Some (3, None, [SPASM_ERR_INVALID_OPTION]).
Proof. vm_compute. split; [reflexivity|]. split; [reflexivity|]. split; [reflexivity|]. split; reflexivity. Qed.
Print Assumptions c82_org.
Print Assumptions c82_org_empty.
Print Assumptions c82_fill.
Print Assumptions c82_equ.
Print Assumptions c82_equ_error.
Print Assumptions c82_assume.
Print Assumptions c82_ends.
