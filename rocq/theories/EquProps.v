(** Giving a name the value of a label that comes later (pass_one.cpp:243-255, directive.cpp:361-376). *)
From Coq Require Import String.
From Verif Require Import Programs.
From Verif Require Import Base BaseProofs State MonadProofs UtilsModel ErrorsModel StorageModel ParserModel PassTwoModel
  PreopModel PassOneModel DirectiveModel Knot MainModel Validate UtilsSpec UtilsProofs UtilsProps StorageProofs PassTwoSpec PassTwoProofs
  ParserSpec ParserProofs ParserProps StringProps InstrSpec MatchSpec MatchProps AsmSpec AsmExpand AsmProofs AsmData AsmLine CondRun DirProps RefuseProps DupProps.

(** name = expression without a value: the error is recorded, and the name stands for the address
    of the line. *)
Theorem c88_assign : forall C n0 f n colon b w names code rest s, (20 <= n0)%nat -> c_counter C = false -> ParserSpec.name_ok n -> not_define C s n ->
  colon = [58] \/ colon = [] -> Forall UtilsSpec.blank b -> line_over rest -> written_ok (P := no_params) w ->
  (forall m, mentions m (w_expr w) -> key C m <> key C n /\ resolves C s names m) ->
  value (c_wrap C) (s_pc s) names (w_expr w) = Err code ->
  exists t x d, line_sec C (knot C n0) (S (S (S f))) (n ++ colon ++ b ++ 61 :: wr w ++ rest) s =
      Ok (Some rest) (noted false code (set_depth d (set_fwd (code =? 262) (set_last_label (Some (key C n)) (set_exitc x (set_labels t s)))))) /\
    (forall m, value_in t m = if eqbl m (key C n) then Some (wrap32 (s_pc s)) else value_in (s_labels s) m).
Proof.
  intros C n0 f n colon b w names code rest s H20 Hc Hn Hd Hcol Hb Ov W Rs V.
  assert (He : ends_label colon (b ++ 61 :: wr w ++ rest)).
  { destruct Hcol as [->| ->]; [now left|right]. split; [reflexivity|]. destruct b as [|c b]; cbn [app hd0]; [split; [reflexivity|lia]|].
    inversion Hb as [|? ? Hx _]; subst. destruct (blank_space c Hx) as (_ & _ & _ & B). split; [exact B|]. unfold UtilsSpec.blank in Hx. lia. }
  destruct (c84_label C (knot C n0) (S (S f)) n colon (b ++ 61 :: wr w ++ rest) s Hc Hn He Hd) as (t & x & E1 & Vt & _).
  destruct (relabelled_is C n s) as (t1 & x1 & R1 & O1 & _).
  pose proof (label_sets C (knot C n0) (S (S f)) n colon (b ++ 61 :: wr w ++ rest) s Hc Hn He Hd) as E2. rewrite R1 in E2. clear E1 Vt.
  set (s1 := set_last_label (Some (key C n)) (set_exitc x1 (set_labels t1 s))) in *.
  assert (V1 : forall m, value_in t1 m = if eqbl m (key C n) then Some (wrap32 (s_pc s)) else value_in (s_labels s) m).
  { intros m. unfold value_in. destruct (eqbl m (key C n)) eqn:Em; [|now rewrite (O1 m Em)]. apply eqbl_eq in Em. subst m.
    assert (Q : tfind (key C n) (s_labels (relabelled C n s)) = tfind (key C n) t1) by (rewrite R1; reflexivity). rewrite <- Q.
    unfold relabelled. destruct (tfind (key C n) (s_labels s)) as [l|] eqn:El; [destruct (Z.eqb_spec (wrap32 (s_pc s)) (l_value l)) as [Ev|Ev]|];
      cbn [s_labels set_last_label set_labels set_exitc]; rewrite ?tfind_tset_same, ?El; cbn; [now rewrite Ev|reflexivity|reflexivity]. }
  pose proof W as (_ & Wt & _ & N & _). cbn in N.
  assert (Rs1 : forall m, mentions m (w_expr w) -> resolves C s1 names m).
  { intros m M. destruct (Rs m M) as (Nk & Hr). unfold resolves in *. unfold s1. cbn [s_args s_labels s_defines set_last_label set_exitc set_labels]. rewrite (O1 (key C m) (eqbl_false _ _ Nk)). exact Hr. }
  pose proof (c01_left_to_right C n0 s1 names (w_expr w) (w_text w) [] [] [] Wt (Forall_nil _) (Forall_nil _) (or_introl eq_refl) N ltac:(lia) Rs1) as P.
  cbv zeta in P. change (s_pc s1) with (s_pc s) in P. rewrite V in P. cbn [app] in P. rewrite app_nil_r in P. destruct P as (d & P).
  exists t1, x1, d. split; [|exact V1]. rewrite E2.
  assert (E : line_sec C (knot C n0) (S (S f)) (b ++ 61 :: wr w ++ rest) s1 = (q <- equate (knot C n0) (wr w ++ rest) ;; ret (Some q)) s1).
  { destruct b as [|c b]; [reflexivity|]. inversion Hb as [|? ? Hx Hb']; subst. destruct (blank_space c Hx) as (B1 & B2 & B3 & _).
    cbn [app]. rewrite line_sec_S. rewrite blank_eol by exact Hx. cbn [hd0]. rewrite B2, B1. replace (c =? 95) with false by lia. cbn [orb].
    change (c :: b ++ 61 :: wr w ++ rest) with ((c :: b) ++ 61 :: wr w ++ rest). rewrite skip_ws_app by exact Hb. rewrite skip_ws_nonblank by (unfold UtilsSpec.blank; lia). reflexivity. }
  rewrite E. unfold equate. rewrite bind_assoc. unfold bind at 1. rewrite (read_written (Pm := no_params) [] w rest s1); [|auto|exact W|auto].
  cbn [rx_word rx_ptr]. rewrite bind_assoc, (bind_ok _ _ _ _ _ P). reflexivity.
Qed.

(** The hypotheses are met: lat is not known, so the expression has error 262 in every state that
    has neither a label nor a define of that name. *)
Definition late : written := mkwritten [] (Single (Leaf NoSign (Name (zs "lat")))) (zs "lat") [].
Ltac name_known := match goal with |- ParserSpec.name_ok ?l => let r := eval vm_compute in l in change l with r end;
  split; [discriminate|]; split; [eexists _, _; split; [reflexivity|unfold name_start; lia]|]; repeat (apply Forall_cons; [unfold ParserSpec.name_char; lia|]); apply Forall_nil.
Lemma late_ok : written_ok (P := no_params) late.
Proof.
  split; [constructor|]. split; [|split; [constructor|split; vm_compute; discriminate]]. apply (W_single _ (zs "lat")).
  apply (W_leaf NoSign [] (Name (zs "lat"))); [|constructor|reflexivity]. assert (N : ParserSpec.name_ok (zs "lat")) by name_known. exact N.
Qed.
Example c88_case : exists t x d, line_sec ex_conf (knot ex_conf 20) 3 (zs "x1 =lat; later") ex_state =
    Ok (Some (zs "; later")) (noted false 262 (set_depth d (set_fwd true (set_last_label (Some (zs "X1")) (set_exitc x (set_labels t ex_state)))))) /\ value_in t (zs "X1") = Some 8.
Proof.
  destruct (c88_assign ex_conf 20 0 (zs "x1") [] (zs " ") late (fun _ => None) 262 (zs "; later") ex_state (le_n 20) eq_refl name_x1) as (t & x & d & E & V).
  - split; reflexivity.
  - now right.
  - repeat constructor; unfold UtilsSpec.blank; lia.
  - right; exists 59; eexists; split; [reflexivity|]; unfold line_ender; lia.
  - exact late_ok.
  - intros m H. assert (Em : zs "lat" = m) by (cbn [late w_expr mentions term_mentions] in H; tauto). subst m. split; [discriminate|]. split; [reflexivity|]. split; reflexivity.
  - reflexivity.
  - exists t, x, d. split; [exact E|]. rewrite V. reflexivity.
Qed.
(** In whole programs there is no message at all and the status is 0: x should be 2 here, the
    address of y, and is 1, its own address; with y above it is right. *)
Theorem c88_silent_refuted :
  Validate.assemble 100 [] (prog [" .db 1"; "x .equ y"; " .db x"; "y:"]%string) = Some (0, Some [1; 1], []) /\
  Validate.assemble 100 [] (prog [" .db 1"; "x = y"; " .db x"; "y:"]%string) = Some (0, Some [1; 1], []) /\
  Validate.assemble 100 [] (prog [" .db 1"; " .db y"; "y:"]%string) = Some (0, Some [1; 2], []).
Proof. vm_compute. split; [reflexivity|]. split; reflexivity. Qed.
Print Assumptions c88_assign.
Print Assumptions c88_silent_refuted.
