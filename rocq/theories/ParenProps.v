(** Parentheses of an expression that are too many or too few (parser.cpp:593-632). *)
From Coq Require Import String.
From Verif Require Import Programs.
From Verif Require Import Base BaseProofs State MonadProofs UtilsModel ErrorsModel StorageModel ParserModel PassTwoModel
  PreopModel PassOneModel DirectiveModel Knot MainModel Validate UtilsSpec UtilsProofs UtilsProps StorageProofs PassTwoSpec PassTwoProofs
  ParserSpec ParserProofs ParserProps.

(** A warning was printed: the status of the run is not 0 any more. *)
Definition warned (s : st) : st := set_exitc (Z.max 1 (s_exitc s)) s.
(** Closing parentheses, with blanks before, between and behind them. *)
Definition closing (t : text) : Prop := Forall (fun c => c = 41 \/ UtilsSpec.blank c) t.
(** Opening parentheses, with the blanks [ws] behind them. *)
Fixpoint opening (ws : list text) : text := match ws with [] => [] | w :: ws => 40 :: w ++ opening ws end.

Lemma warning_ok s : show_warning s = Ok tt (warned s).
Proof.
  unfold show_warning, raise_exit, warned. rewrite bind_get. unfold upd. do 3 f_equal. change EXIT_WARNINGS with 1. destruct (s_exitc s <? 1) eqn:E; lia.
Qed.
Lemma warned_at s d : warned (at_ s d) = at_ (warned s) d.
Proof. destruct s. reflexivity. Qed.
Lemma warned_twice s : warned (warned s) = warned s.
Proof.
  unfold warned. change (s_exitc (set_exitc (Z.max 1 (s_exitc s)) s)) with (Z.max 1 (s_exitc s)).
  replace (Z.max 1 (Z.max 1 (s_exitc s))) with (Z.max 1 (s_exitc s)) by lia. destruct s. reflexivity.
Qed.

Lemma level C s names e te w1 r k depth d good v : writes e te -> Forall UtilsSpec.blank w1 -> 0 <= depth ->
  (wt no_need e <= k)%nat -> 1 + d + Z.of_nat (wt no_need e) <= 20 -> (forall m, mentions m e -> resolves C s names m) -> follows (ends_name e) r ->
  value (c_wrap C) (s_pc s) names e = Val v ->
  (forall f q n, skip_ws q = skip_ws r -> after C (knot C k) f depth v n q (at_ s (d + 1)) = good) ->
  parse_num_full C (knot C k) (w1 ++ te ++ r) depth (at_ s d) = good.
Proof.
  intros He Hw1 D0 Hk Hd Hres Hf V Hop.
  assert (Hread : forall k m d, resolves C s names m -> name_ok m -> (no_need m <= k)%nat ->
    d + Z.of_nat (no_need m) <= 20 -> name_reads C (knot C k) s names d m).
  { intros k' m d' Hm Hok _ _. now apply resolves_reads. }
  assert (Hall : expr_reads C s names no_need (fun m => resolves C s names m) e) by now apply reads_all.
  destruct (writes_start e te He) as (c & q & Ec & Hc).
  unfold parse_num_full. rewrite bind_upd, bind_get, bind_upd.
  replace (s_depth (set_fwd false (at_ s d))) with d by reflexivity.
  replace (RECURSION_LIMIT <? d + 1) with false by (unfold RECURSION_LIMIT; lia). cbv iota.
  replace (set_depth (d + 1) (set_fwd false (at_ s d))) with (at_ s (d + 1)) by (symmetry; apply at_step).
  assert (Es : skip_ws (w1 ++ te ++ r) = te ++ r).
  { apply (skip_blanks w1 (te ++ r) c (q ++ r) Hw1); [now rewrite Ec|assumption]. }
  rewrite Es. cbv zeta.
  destruct (te ++ r) as [|x y] eqn:E; [rewrite Ec in E; discriminate|]. rewrite <- E. clear Es E x y.
  pose proof (terms_length e te He) as Ht.
  destruct (Hall te r k depth (d + 1) (S (length (te ++ r))) None He Hres Hf Hk ltac:(lia) D0 ltac:(rewrite app_length; lia)) as (r' & m & Er & Hy).
  rewrite V in Hy. unfold yields in Hy. rewrite Hy. now apply Hop.
Qed.

Lemma end_skip r : line_end r -> skip_ws r = r /\ is_eol r = true.
Proof.
  intros [-> | (c & t & -> & H)]; [split; reflexivity|]. split; [|unfold is_eol, line_ender in *; lia].
  apply skip_ws_nonblank. unfold line_ender in H. unfold UtilsSpec.blank. lia.
Qed.
Lemma end_follows nm r : line_end r -> follows nm r.
Proof.
  intros [-> | (c & t & -> & Hr)]; [destruct nm; [split; [reflexivity|discriminate]|reflexivity]|].
  unfold line_ender in Hr. assert (Hcc : c = 10 \/ c = 13 \/ c = 59 \/ c = 92) by lia.
  destruct nm; [split|]; destruct Hcc as [->|[->|[->| ->]]]; try reflexivity; discriminate.
Qed.
Lemma blank_follows nm x r : UtilsSpec.blank x -> follows nm (x :: r).
Proof.
  intros Hx. unfold follows, is_name_char, isalnum, isalpha, isupper, islower, isdigit, memb. simpl. unfold UtilsSpec.blank in Hx. destruct nm; lia.
Qed.

Lemma get_closing r : line_end r -> forall t, closing t -> forall f q s, skip_ws q = skip_ws (t ++ r) -> (length (skip_ws q) < f)%nat ->
  get_op f 0 q s = Ok (OpEnd r) (if memb 41 t then warned s else s).
Proof.
  intros Hr. destruct (end_skip r Hr) as (R1 & R2). induction 1 as [|x t Hx Ht IH]; intros f q s E L.
  - cbn [app] in E. rewrite R1 in E. destruct f as [|f]; [lia|]. rewrite get_op_end by (now rewrite E). rewrite E. reflexivity.
  - destruct Hx as [-> | Hx].
    + rewrite <- app_comm_cons in E. rewrite (skip_ws_nonblank 41) in E by (unfold UtilsSpec.blank; lia). destruct f as [|f]; [lia|]. cbn [get_op]. rewrite E.
      change (is_eol (41 :: t ++ r)) with false. cbv iota. change (match_op math_defs (41 :: t ++ r)) with (@None (mathop * text)). cbv iota.
      change (hd0 (41 :: t ++ r) =? 41) with true. change (0 <? 0) with false. cbv iota. cbn [tl].
      rewrite (bind_ok _ _ _ _ _ (warning_ok s)). rewrite E in L. cbn [length] in L. pose proof (skip_ws_length (t ++ r)).
      rewrite (IH f (t ++ r) (warned s)) by (reflexivity || lia). change (memb 41 (41 :: t)) with true. cbv iota. destruct (memb 41 t); [now rewrite warned_twice|reflexivity].
    + assert (B : skip_ws ((x :: t) ++ r) = skip_ws (t ++ r)).
      { change ((x :: t) ++ r) with ([x] ++ t ++ r). apply skip_ws_app. apply Forall_cons; [exact Hx|apply Forall_nil]. }
      rewrite B in E. rewrite (IH f q s E L). replace (memb 41 (x :: t)) with (memb 41 t); [reflexivity|].
      unfold memb. cbn [existsb]. replace (41 =? x) with false by (unfold UtilsSpec.blank in Hx; lia). reflexivity.
Qed.

(** Closing parentheses behind an expression are skipped, with a warning if there is one: the value
    stays. *)
Theorem c94_extra : forall C n s names e te w1 t rest v,
  writes e te -> Forall UtilsSpec.blank w1 -> closing t -> In 41 t -> line_end rest ->
  nest e <= 19 -> nest e < Z.of_nat n -> (forall m, mentions m e -> resolves C s names m) -> value (c_wrap C) (s_pc s) names e = Val v ->
  parse_num (knot C n) (w1 ++ te ++ t ++ rest) s = Ok (Some v) (warned (set_depth 0 (set_fwd false s))).
Proof.
  intros C n s names e te w1 t rest v He Hw1 Ht I41 Hr Hn19 Hn Hres V.
  pose proof (proj2 wt_nest e) as W. destruct n as [|n]; [lia|].
  unfold parse_num. cbn [knot f_full]. rewrite bind_upd.
  assert (Eq : parse_num_full C (knot C n) (w1 ++ te ++ t ++ rest) 0 (set_depth 0 s) =
    parse_num_full C (knot C n) (w1 ++ te ++ t ++ rest) 0 (at_ s 0)).
  { unfold parse_num_full. rewrite !bind_upd. reflexivity. }
  unfold bind. rewrite Eq.
  rewrite (level C s names e te w1 (t ++ rest) n 0 0 (Ok (Some (rest, v)) (warned (at_ s 0))) v); [reflexivity| | | | | | | | |]; auto; try lia.
  - destruct t as [|x t]; [destruct I41|]. inversion Ht as [|? ? [-> | Hx] _]; subst; [destruct (ends_name e); [split; [reflexivity|discriminate]|reflexivity]|].
    now apply blank_follows.
  - intros f q m E. unfold after. rewrite (bind_ok _ _ _ _ _ (get_closing rest Hr t Ht (S (length q)) q (at_ s (0 + 1)) E ltac:(pose proof (skip_ws_length q); lia))).
    assert (M : memb 41 t = true). { unfold memb. apply existsb_exists. exists 41. split; [exact I41|reflexivity]. }
    rewrite M. unfold dec_depth. rewrite bind_assoc, bind_get, bind_upd. destruct s. reflexivity.
Qed.

Lemma opened C s names e te r v : writes e te -> (forall m, mentions m e -> resolves C s names m) -> value (c_wrap C) (s_pc s) names e = Val v ->
  forall w2, Forall UtilsSpec.blank w2 -> line_end r -> forall ws, Forall (Forall UtilsSpec.blank) ws -> forall k depth d w1, Forall UtilsSpec.blank w1 -> 0 <= depth -> (0 < depth \/ ws <> []) ->
  (length ws + wt no_need e <= k)%nat -> 1 + d + Z.of_nat (length ws + wt no_need e) <= 20 ->
  parse_num_full C (knot C k) (w1 ++ opening ws ++ te ++ w2 ++ r) depth (at_ s d) = Ok (Some (r, v)) (warned (at_ s d)).
Proof.
  intros He Hres V w2 Hw2 Hr. destruct (end_skip r Hr) as (R1 & R2).
  induction 1 as [|w ws Hw Hws IH]; intros k depth d w1 Hw1 D0 D1 Hk Hd.
  - cbn [opening app]. cbn [length] in Hk, Hd. assert (D : 0 < depth) by (destruct D1; [assumption|contradiction]).
    apply (level C s names e te w1 (w2 ++ r) k depth d) with (v := v); auto; try lia.
    + destruct Hw2 as [|x w2 Hx Hw2]; [now apply end_follows|now apply blank_follows].
    + intros f q m E. rewrite (skip_ws_app w2 r Hw2), R1 in E. unfold after. cbn [get_op]. rewrite E, R2. replace (0 <? depth) with true by lia.
      rewrite !bind_assoc. rewrite (bind_ok _ _ _ _ _ (warning_ok _)). rewrite bind_ret. unfold dec_depth. rewrite bind_assoc, bind_get, bind_upd.
      rewrite !warned_at. rewrite at_back. reflexivity.
  - cbn [opening]. cbn [length] in Hk, Hd. set (X := w ++ opening ws ++ te ++ w2 ++ r).
    replace (w1 ++ (40 :: w ++ opening ws) ++ te ++ w2 ++ r) with (w1 ++ 40 :: X) by (unfold X; cbn [app]; now rewrite <- app_assoc).
    unfold parse_num_full. rewrite bind_upd, bind_get, bind_upd.
    replace (s_depth (set_fwd false (at_ s d))) with d by reflexivity.
    replace (RECURSION_LIMIT <? d + 1) with false by (unfold RECURSION_LIMIT; lia). cbv iota.
    replace (set_depth (d + 1) (set_fwd false (at_ s d))) with (at_ s (d + 1)) by (symmetry; apply at_step).
    rewrite (skip_blanks w1 (40 :: X) 40 X Hw1 eq_refl) by (unfold UtilsSpec.blank; lia). cbv zeta. cbn [num_loop].
    change (unary (40 :: X)) with (false, false, 40 :: X). cbv iota. change (hd0 (40 :: X) =? 40) with true. cbv iota. cbn [tl].
    destruct k as [|k]; [lia|]. cbn [knot f_full]. rewrite bind_assoc.
    rewrite (bind_ok _ _ _ _ _ (IH k (depth + 1) (d + 1) w Hw ltac:(lia) ltac:(left; lia) ltac:(lia) ltac:(lia))).
    rewrite bind_ret. cbv iota. rewrite bind_ret. change (is_divmod M_NONE) with false. cbn [andb]. cbv iota.
    cbn [apply_op]. rewrite bind_ret. cbn [get_op]. rewrite R1, R2. rewrite !bind_assoc.
    assert (G : (if 0 <? depth then show_warning else ret tt) (warned (at_ s (d + 1))) = Ok tt (warned (at_ s (d + 1)))).
    { destruct (0 <? depth); [|reflexivity]. rewrite warning_ok, warned_twice. reflexivity. }
    rewrite (bind_ok _ _ _ _ _ G). rewrite bind_ret. unfold dec_depth. rewrite bind_assoc, bind_get, bind_upd.
    rewrite !warned_at, at_back. reflexivity.
Qed.
(** Parentheses that are opened before an expression and not closed on the line are closed at its end, with a
    warning: the value stays. *)
Theorem c94_missing : forall C n s names e te w1 ws w2 rest v,
  writes e te -> Forall UtilsSpec.blank w1 -> Forall (Forall UtilsSpec.blank) ws -> ws <> [] -> Forall UtilsSpec.blank w2 -> line_end rest ->
  Z.of_nat (length ws) + nest e <= 19 -> Z.of_nat (length ws) + nest e < Z.of_nat n ->
  (forall m, mentions m e -> resolves C s names m) -> value (c_wrap C) (s_pc s) names e = Val v ->
  parse_num (knot C n) (w1 ++ opening ws ++ te ++ w2 ++ rest) s = Ok (Some v) (warned (set_depth 0 (set_fwd false s))).
Proof.
  intros C n s names e te w1 ws w2 rest v He Hw1 Hws N Hw2 Hr Hn19 Hn Hres V.
  pose proof (proj2 wt_nest e) as W. destruct n as [|n]; [lia|].
  unfold parse_num. cbn [knot f_full]. rewrite bind_upd.
  assert (Eq : parse_num_full C (knot C n) (w1 ++ opening ws ++ te ++ w2 ++ rest) 0 (set_depth 0 s) =
    parse_num_full C (knot C n) (w1 ++ opening ws ++ te ++ w2 ++ rest) 0 (at_ s 0)).
  { unfold parse_num_full. rewrite !bind_upd. reflexivity. }
  unfold bind. rewrite Eq.
  rewrite (opened C s names e te rest v He Hres V w2 Hw2 Hr ws Hws n 0 0 w1 Hw1 ltac:(lia) ltac:(now right) ltac:(lia) ltac:(lia)). reflexivity.
Qed.

Example c94_case :
  parse_num (knot (mkconf (world_of []) args0) 2) (zs " 2+ $03 *- (%100-lab) ) ) ; x") c01_state = Ok (Some 25) (warned (set_depth 0 (set_fwd false c01_state))) /\
  parse_num (knot (mkconf (world_of []) args0) 4) (zs "( (2+ $03 *- (%100-lab) ; x") c01_state = Ok (Some 25) (warned (set_depth 0 (set_fwd false c01_state))).
Proof.
  destruct c01_case as (_ & N & R & V & _).
  assert (B : Forall UtilsSpec.blank [32]) by (apply Forall_cons; [now left|apply Forall_nil]).
  assert (L : line_end (zs "; x")) by (right; exists 59, (zs " x"); split; [reflexivity|unfold line_ender; lia]).
  assert (N1 : nest c01_expr <= 19 /\ nest c01_expr < Z.of_nat 2) by (rewrite N; lia). destruct N1 as (N1 & N2).
  split.
  - apply (c94_extra (mkconf (world_of []) args0) 2 c01_state c01_names c01_expr (zs "2+ $03 *- (%100-lab)") [32] (zs " ) ) ") (zs "; x") 25 c01_writes B); auto; [|right; left; reflexivity].
    change (zs " ) ) ") with [32; 41; 32; 41; 32]. unfold closing, UtilsSpec.blank. repeat (apply Forall_cons; [lia|]). apply Forall_nil.
  - apply (c94_missing (mkconf (world_of []) args0) 4 c01_state c01_names c01_expr (zs "2+ $03 *- (%100-lab)") [] [[32]; []] [32] (zs "; x") 25 c01_writes); auto; try (rewrite N; cbn [length]; lia); discriminate.
Qed.
Example c94_runs : Validate.assemble 100 [] (prog ["#if 1)"; " .db 1"; "#endif"]%string) = Some (1, Some [1], []) /\
  Validate.assemble 100 [] (prog [" .dw (2+((3"]%string) = Some (1, Some [5; 0], []).
Proof. vm_compute. split; reflexivity. Qed.

(** In a list of arguments a closing parenthesis too many is the end of the list: no argument is read
    from there on, and nothing is said about it. *)
Theorem c94_stops : forall w rest delims s, Forall UtilsSpec.blank w ->
  read_expr (w ++ 41 :: rest) delims s = Ok (mkrx false (41 :: rest) [] false) s.
Proof.
  intros w rest delims s Hw. unfold read_expr, read_expr', read_expr_gen. rewrite skip_ws_app by exact Hw.
  rewrite (skip_ws_nonblank 41) by (unfold UtilsSpec.blank; lia). reflexivity.
Qed.
(** So the data behind it are lost without a message. *)
Theorem c94_warned_refuted :
  Validate.assemble 100 [] (prog [" .db 1),2"; " .db 3"]%string) = Some (0, Some [1; 3], []) /\
  Validate.assemble 100 [] (prog [" .db 1,2"; " .db 3"]%string) = Some (0, Some [1; 2; 3], []).
Proof. vm_compute. split; reflexivity. Qed.
Print Assumptions c94_extra.
Print Assumptions c94_missing.
Print Assumptions c94_stops.
Print Assumptions c94_warned_refuted.
