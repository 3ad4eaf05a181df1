(** Text behind an expression that continues it in no way (parser.cpp:518-646). *)
From Coq Require Import String.
From Verif Require Import Programs.
From Verif Require Import Base BaseProofs State MonadProofs UtilsModel ErrorsModel StorageModel ParserModel PassTwoModel
  PreopModel PassOneModel DirectiveModel Knot MainModel Validate UtilsSpec UtilsProofs UtilsProps StorageProofs PassTwoSpec PassTwoProofs
  ParserSpec ParserProofs ParserProps.

(** The character begins no operator, ends no line and closes no parenthesis. *)
Definition stray (c : Z) : Prop := ~ In c (zs "<>&|=!+-*/%^)") /\ ~ UtilsSpec.blank c /\ ~ line_ender c.
(** The texts that are operators. *)
Definition operators : list text :=
  [zs "<<"; zs ">>"; zs "&&"; zs "||"; zs "<="; zs ">="; zs "<"; zs ">"; zs "=="; zs "="; zs "!="; zs "+"; zs "-"; zs "*"; zs "/"; zs "%"; zs "^"; zs "&"; zs "|"].

Lemma starts C s names e te w1 w2 r n code : writes e te -> Forall UtilsSpec.blank w1 -> Forall UtilsSpec.blank w2 ->
  nest e <= 19 -> nest e < Z.of_nat n -> (forall m, mentions m e -> resolves C s names m) -> follows (ends_name e) (w2 ++ r) ->
  (forall f q s, skip_ws q = skip_ws r -> get_op (S f) 0 q s = Ok OpBad (noted false code s)) -> forall v, value (c_wrap C) (s_pc s) names e = Val v ->
  parse_num (knot C n) (w1 ++ te ++ w2 ++ r) s = Ok None (noted false code (set_depth 1 (set_fwd false s))).
Proof.
  intros He Hw1 Hw2 Hn19 Hn Hres Hf Hop v V.
  destruct n as [|n]; [destruct wt_nest as (_ & W); specialize (W e); lia|].
  pose proof (proj2 wt_nest e) as W.
  assert (Hread : forall k m d, resolves C s names m -> name_ok m -> (no_need m <= k)%nat ->
    d + Z.of_nat (no_need m) <= 20 -> name_reads C (knot C k) s names d m).
  { intros k m d Hm Hok _ _. now apply resolves_reads. }
  assert (Hall : expr_reads C s names no_need (fun m => resolves C s names m) e) by now apply reads_all.
  assert (P : parse_num_full C (knot C n) (w1 ++ te ++ w2 ++ r) 0 (at_ s 0) = Ok None (noted false code (at_ s 1))).
  { destruct (writes_start e te He) as (c & q & Ec & Hc).
    unfold parse_num_full. rewrite bind_upd, bind_get, bind_upd.
    replace (s_depth (set_fwd false (at_ s 0))) with 0 by reflexivity.
    change (RECURSION_LIMIT <? 0 + 1) with false. cbv iota.
    replace (set_depth (0 + 1) (set_fwd false (at_ s 0))) with (at_ s 1) by (symmetry; apply at_step).
    assert (Es : skip_ws (w1 ++ te ++ w2 ++ r) = te ++ w2 ++ r).
    { apply (skip_blanks w1 (te ++ w2 ++ r) c (q ++ w2 ++ r) Hw1); [now rewrite Ec|assumption]. }
    rewrite Es. cbv zeta.
    destruct (te ++ w2 ++ r) as [|x y] eqn:E; [rewrite Ec in E; discriminate|]. rewrite <- E. clear Es E x y.
    pose proof (terms_length e te He) as Ht.
    destruct (Hall te (w2 ++ r) n 0 1 (S (length (te ++ w2 ++ r))) None He Hres Hf ltac:(lia) ltac:(lia) ltac:(lia) ltac:(rewrite app_length; lia)) as (r' & m & Er & Hy).
    rewrite (skip_ws_app w2 r Hw2) in Er. rewrite V in Hy. unfold yields in Hy. rewrite Hy. unfold after.
    rewrite (bind_ok _ _ _ _ _ (Hop _ _ _ Er)). reflexivity. }
  unfold parse_num. cbn [knot f_full]. rewrite bind_upd.
  assert (Eq : parse_num_full C (knot C n) (w1 ++ te ++ w2 ++ r) 0 (set_depth 0 s) =
    parse_num_full C (knot C n) (w1 ++ te ++ w2 ++ r) 0 (at_ s 0)).
  { unfold parse_num_full. rewrite !bind_upd. reflexivity. }
  unfold bind. rewrite Eq, P. reflexivity.
Qed.

Lemma no_op c rest defs : Forall (fun d => exists k t, snd d = k :: t /\ k <> c) defs -> match_op defs (c :: rest) = None.
Proof.
  induction 1 as [|(o & d) defs (k & t & E & N) _ IH]; [reflexivity|]. cbn [snd] in E. subst d. cbn [match_op prefixb].
  replace (k =? c) with false by lia. exact IH.
Qed.
Lemma after_gap nm w r : Forall UtilsSpec.blank w -> w <> [] -> follows nm (w ++ r).
Proof.
  intros Hw N. destruct Hw as [|x w Hx Hw]; [contradiction|].
  unfold follows, is_name_char, isalnum, isalpha, isupper, islower, isdigit, memb. simpl. unfold UtilsSpec.blank in Hx.
  destruct nm; lia.
Qed.
(** An expression with a value, blanks, and something else: there is no value, and that an operator
    is missing is recorded; nothing else changes. *)
Theorem c93_junk : forall C n s names e te w1 w2 c rest v,
  writes e te -> Forall UtilsSpec.blank w1 -> Forall UtilsSpec.blank w2 -> w2 <> [] -> stray c ->
  nest e <= 19 -> nest e < Z.of_nat n -> (forall m, mentions m e -> resolves C s names m) -> value (c_wrap C) (s_pc s) names e = Val v ->
  parse_num (knot C n) (w1 ++ te ++ w2 ++ c :: rest) s = Ok None (noted false SPASM_ERR_OPERATOR_EXPECTED (set_depth 1 (set_fwd false s))).
Proof.
  intros C n s names e te w1 w2 c rest v He Hw1 Hw2 N2 (Sc & Nb & Nl) Hn19 Hn Hres V.
  apply (starts C s names e te w1 w2 (c :: rest) n SPASM_ERR_OPERATOR_EXPECTED) with (v := v); auto.
  - apply after_gap; [exact Hw2|exact N2].
  - intros f q s' E. rewrite skip_ws_nonblank in E by exact Nb. cbn [get_op]. rewrite E.
    replace (is_eol (c :: rest)) with false by (unfold is_eol, line_ender in *; lia).
    change (zs "<>&|=!+-*/%^)") with [60; 62; 38; 124; 61; 33; 43; 45; 42; 47; 37; 94; 41] in Sc. cbn [In] in Sc.
    assert (M : match_op math_defs (c :: rest) = None).
    { apply no_op. let r := eval vm_compute in math_defs in change math_defs with r. repeat (apply Forall_cons; [eexists _, _; split; [reflexivity|lia]|]). apply Forall_nil. }
    rewrite M. cbn [hd0]. replace (c =? 41) with false by lia. reflexivity.
Qed.

(** An operator with nothing behind it but blanks: there is no value, and that a value is missing is
    recorded. *)
Theorem c93_trailing : forall C n s names e te w1 w2 o w3 v,
  writes e te -> Forall UtilsSpec.blank w1 -> Forall UtilsSpec.blank w2 -> w2 <> [] -> In o operators -> Forall UtilsSpec.blank w3 ->
  nest e <= 19 -> nest e < Z.of_nat n -> (forall m, mentions m e -> resolves C s names m) -> value (c_wrap C) (s_pc s) names e = Val v ->
  parse_num (knot C n) (w1 ++ te ++ w2 ++ o ++ w3) s = Ok None (noted false SPASM_ERR_VALUE_EXPECTED (set_depth 1 (set_fwd false s))).
Proof.
  intros C n s names e te w1 w2 o w3 v He Hw1 Hw2 N2 Ho Hw3 Hn19 Hn Hres V.
  assert (W3 : skip_ws w3 = []) by (rewrite <- (app_nil_r w3), skip_ws_app by exact Hw3; reflexivity).
  apply (starts C s names e te w1 w2 (o ++ w3) n SPASM_ERR_VALUE_EXPECTED) with (v := v); auto.
  - apply after_gap; [exact Hw2|exact N2].
  - intros f q s' E. cbn [get_op]. rewrite E. clear E.
    assert (M : exists m, match_op math_defs (o ++ w3) = Some (m, w3)).
    { assert (X : w3 = [] \/ exists x t, w3 = x :: t /\ UtilsSpec.blank x).
      { destruct Hw3 as [|x t Hx _]; [now left|right]. exists x, t. auto. }
      clear - Ho X. cbn [operators In] in Ho.
      destruct X as [-> | (x & t & -> & [-> | [-> | [-> | ->]]])]; repeat (destruct Ho as [<-|Ho]; [eexists; reflexivity|]); destruct Ho. }
    destruct M as (m & M).
    assert (K : skip_ws (o ++ w3) = o ++ w3 /\ is_eol (o ++ w3) = false).
    { clear - Ho. cbn [operators In] in Ho. repeat (destruct Ho as [<-|Ho]; [split; reflexivity|]). destruct Ho. }
    destruct K as (K1 & K2). rewrite K1, K2, M, W3. reflexivity.
Qed.
(** Both errors end the run with status 3. *)
Theorem c93_ends : forall c s, In c [SPASM_ERR_OPERATOR_EXPECTED; SPASM_ERR_VALUE_EXPECTED] ->
  s_sess s = 1 -> end_session 1 (noted false c s) = Exit 3 (set_sess 0 (set_errs (unlead 1 (s_errs s)) s)).
Proof.
  intros c s Hc H. unfold end_session, noted. rewrite bind_get, bind_get, bind_upd, bind_upd. cbn [s_errs set_errs lead unlead e_sess s_sess]. rewrite H.
  cbn [In] in Hc. repeat (destruct Hc as [<-|Hc]; [reflexivity|]). destruct Hc.
Qed.

Example c93_case :
  parse_num (knot (mkconf (world_of []) args0) 2) (zs " 2+ $03 *- (%100-lab) 7") c01_state = Ok None (noted false 259 (set_depth 1 (set_fwd false c01_state))) /\
  parse_num (knot (mkconf (world_of []) args0) 2) (zs " 2+ $03 *- (%100-lab) << ") c01_state = Ok None (noted false 260 (set_depth 1 (set_fwd false c01_state))).
Proof.
  destruct c01_case as (_ & N & R & V & _).
  assert (B : Forall UtilsSpec.blank [32]) by (apply Forall_cons; [now left|apply Forall_nil]).
  assert (N1 : nest c01_expr <= 19 /\ nest c01_expr < Z.of_nat 2) by (rewrite N; lia). destruct N1 as (N1 & N2).
  split.
  - apply (c93_junk (mkconf (world_of []) args0) 2 c01_state c01_names c01_expr (zs "2+ $03 *- (%100-lab)") [32] [32] 55 [] 25 c01_writes B B); auto; [discriminate|].
    split; [change (zs "<>&|=!+-*/%^)") with [60; 62; 38; 124; 61; 33; 43; 45; 42; 47; 37; 94; 41]; cbn [In]; lia|]. unfold UtilsSpec.blank, line_ender. lia.
  - apply (c93_trailing (mkconf (world_of []) args0) 2 c01_state c01_names c01_expr (zs "2+ $03 *- (%100-lab)") [32] [32] (zs "<<") [32] 25 c01_writes B B); auto; [discriminate|left; reflexivity].
Qed.
Example c93_runs : Validate.assemble 100 [] (prog [" .db 1 2"]%string) = Some (3, None, [259]) /\
  Validate.assemble 100 [] (prog [" ld a,1 2"]%string) = Some (3, None, [259]) /\
  Validate.assemble 100 [] (prog [" .db 1 +"]%string) = Some (3, None, [260]).
Proof. vm_compute. split; [reflexivity|]. split; reflexivity. Qed.
Print Assumptions c93_junk.
Print Assumptions c93_trailing.
Print Assumptions c93_ends.
