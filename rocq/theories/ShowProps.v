(** What .show prints (directive.cpp:377-393, 490-509, pass_two.cpp:98-121, 199-240). *)
From Coq Require Import String.
From Verif Require Import Programs.
From Verif Require Import Base BaseProofs State MonadProofs UtilsModel ErrorsModel StorageModel ParserModel PassTwoModel
  PreopModel PassOneModel DirectiveModel Knot MainModel Validate UtilsSpec UtilsProofs UtilsProps StorageProofs PassTwoSpec PassTwoProofs
  ParserSpec ParserProofs ParserProps StringProps InstrSpec MatchSpec MatchProps AsmSpec AsmExpand AsmProofs AsmData AsmLine DirProps DupProps.

(** The line for a name with these parameters and this text. *)
Definition shown_line (name : text) (params : list text) (contents : option text) : text :=
  name ++ match params with [] => [] | p :: ps => zs "(" ++ p ++ concat (map (fun q => zs ", " ++ q) ps) ++ zs ")" end ++
  match contents with Some t => zs ": " ++ t | None => [] end ++ [10].
Definition printed (t : text) (s : st) : st := set_stdout (t :: s_stdout s) s.
(** A global define, not one of the two the assembler keeps up to date. *)
Definition global_define (C : cfg) (s : st) (name : text) (d : define) : Prop :=
  find_arg (key C name) (s_args s) = None /\ tfind (key C name) (s_defines s) = Some d /\ key C name <> zs "__LINE" /\ key C name <> zs "__FILE".

Lemma comma_concat p ps : comma_list (p :: ps) = p ++ concat (map (fun q => zs ", " ++ q) ps).
Proof.
  revert p. induction ps as [|q ps IH]; intros p; [cbn; now rewrite app_nil_r|].
  change (comma_list (p :: q :: ps)) with (p ++ zs ", " ++ comma_list (q :: ps)). rewrite IH. cbn [map concat]. now rewrite <- !app_assoc.
Qed.
Lemma show_prints C s name d : global_define C s name d ->
  search_defines C name true s = Ok (Some (RG (key C name))) s /\ show_define (RG (key C name)) s = Ok tt (printed (shown_line (d_name d) (d_args d) (d_contents d)) s).
Proof.
  intros (A & D & N1 & N2). split.
  - unfold search_defines. rewrite bind_get, bind_get, A, D, (eqbl_false _ _ N1), (eqbl_false _ _ N2). reflexivity.
  - unfold show_define. unfold bind at 1. rewrite (get_define_ok (RG (key C name)) s d D). unfold print. rewrite bind_get. unfold upd, printed, shown_line. do 3 f_equal.
    destruct (d_args d) as [|p ps]; [reflexivity|]. rewrite comma_concat. change (zs "(") with [40]. change (zs ")") with [41]. cbn [app]. now rewrite <- !app_assoc.
Qed.
Lemma show_none C s name : not_define C s name -> search_defines C name true s = Ok None s.
Proof.
  intros (A & D). unfold search_defines. rewrite bind_get, bind_get, A, D. destruct (eqbl _ (zs "__LINE")); [rewrite bind_assoc, bind_get; reflexivity|].
  destruct (eqbl _ (zs "__FILE")); [rewrite bind_assoc, bind_get; reflexivity|reflexivity].
Qed.
Lemma show_line C n s word gap name b rest : word_of word (zs "show") -> gap_ok gap -> ParserSpec.name_ok name -> Forall UtilsSpec.blank b -> zlen name + zlen b <= 254 -> line_over rest ->
  handle_directive C (knot C n) (word ++ gap ++ name ++ b ++ rest) s =
  (d <- search_defines C name true ;; match d with None => add_pass_two_output (knot C n) name OUTPUT_SHOW | Some r => show_define r end ;;; ret (Some rest)) s.
Proof.
  intros W G Nm Fb L Ov. set (w := mkwritten [] (Single (Leaf NoSign (Name name))) name b).
  assert (Wo : written_ok (P := no_params) w).
  { split; [constructor|]. split; [|split; [exact Fb|split; [vm_compute; discriminate|exact L]]].
    apply W_single. change (w_text w) with (sign_text NoSign ++ [] ++ atom_text (Name name)). constructor; [exact Nm|constructor|reflexivity]. }
  replace (name ++ b ++ rest) with (wr w ++ rest) by (unfold wr, w; cbn [w_before w_text w_after app]; now rewrite <- app_assoc).
  dispatch. rewrite skip_ws_app by apply G. unfold dir_show. rewrite bind_assoc. unfold bind at 1. rewrite read_skip, (read_written (Pm := no_params) [] w rest s); [|auto|exact Wo|auto].
  cbn [rx_word rx_ptr rx_ret w w_text]. rewrite !bind_assoc. unfold bind at 1 4. destruct (search_defines C name true s) as [d s1|c s1|u|]; [|reflexivity|reflexivity|reflexivity].
  rewrite bind_assoc. reflexivity.
Qed.

(** A define is printed where the line stands. *)
Theorem c86_now : forall C n s word gap name b rest d, word_of word (zs "show") -> gap_ok gap -> ParserSpec.name_ok name -> Forall UtilsSpec.blank b -> zlen name + zlen b <= 254 -> line_over rest ->
  global_define C s name d ->
  handle_directive C (knot C n) (word ++ gap ++ name ++ b ++ rest) s = Ok (Some rest) (printed (shown_line (d_name d) (d_args d) (d_contents d)) s).
Proof.
  intros C n s word gap name b rest d W G Nm Fb L Ov D. rewrite (show_line C n s word gap name b rest W G Nm Fb L Ov). destruct (show_prints C s name d D) as (E1 & E2).
  rewrite (bind_ok _ _ _ _ _ E1), (bind_ok _ _ _ _ _ E2). reflexivity.
Qed.
(** A name that is no define yet is looked up again in the second pass, in whatever state it is
    then: it is printed if it is a define by then, and reported if it is not. *)
Theorem c86_later : forall C n s word gap name b rest, word_of word (zs "show") -> gap_ok gap -> ParserSpec.name_ok name -> Forall UtilsSpec.blank b -> zlen name + zlen b <= 254 -> line_over rest ->
  not_define C s name ->
  exists o, handle_directive C (knot C n) (word ++ gap ++ name ++ b ++ rest) s = Ok (Some rest) (set_outputs (s_outputs s ++ [o]) s) /\
    forall R s2, let s3 := set_curr_reus (s_curr_reus s) (set_file (s_file s) (set_line (s_line s) (set_pc (s_pc s) s2))) in
      (forall d, global_define C s2 name d -> second_pass_output C R o s2 = Ok tt (printed (shown_line (d_name d) (d_args d) (d_contents d)) s3)) /\
      (not_define C s2 name -> second_pass_output C R o s2 = Ok tt (noted false SPASM_ERR_LABEL_NOT_FOUND s3)).
Proof.
  intros C n s word gap name b rest W G Nm Fb L Ov D. exists (mkpoutput (s_pc s) (s_line s) (s_curr_reus s - 1) name OUTPUT_SHOW (s_file s)). split.
  - rewrite (show_line C n s word gap name b rest W G Nm Fb L Ov). rewrite (bind_ok _ _ _ _ _ (show_none C s name D)). unfold add_pass_two_output, get_curr_reusable.
    repeat first [rewrite bind_assoc|rewrite bind_get|rewrite bind_upd|rewrite bind_ret]. reflexivity.
  - intros R s2 s3.
    assert (E : forall m : M unit, (upd (set_pc (s_pc s)) ;;; upd (set_line (s_line s)) ;;; upd (set_file (s_file s)) ;;; set_curr_reusable (s_curr_reus s - 1) ;;; m) s2 = m s3).
    { intros m. unfold set_curr_reusable. rewrite !bind_upd. replace (s_curr_reus s - 1 + 1) with (s_curr_reus s) by lia. reflexivity. }
    unfold second_pass_output. cbn [o_pc o_line o_file o_reus o_type o_expr]. rewrite E. split.
    + intros d Hd. assert (H3 : global_define C s3 name d) by exact Hd. destruct (show_prints C s3 name d H3) as (E1 & E2). rewrite (bind_ok _ _ _ _ _ E1). exact E2.
    + intros Hd. assert (H3 : not_define C s3 name) by exact Hd. rewrite (bind_ok _ _ _ _ _ (show_none C s3 name H3)). reflexivity.
Qed.
(** The hypotheses are met. *)
Definition show_state : st := set_defines (tset (zs "PAIR") (mkdefine (zs "PAIR") 1 [] (Some (zs "a+b")) [zs "a"; zs "b"]) (s_defines ex_state)) ex_state.
Lemma name_pair : ParserSpec.name_ok (zs "pair").
Proof.
  split; [discriminate|]. split; [exists 112; eexists; split; [reflexivity|unfold name_start; lia]|].
  match goal with |- Forall _ ?l => let r := eval vm_compute in l in change l with r end; repeat (apply Forall_cons; [unfold ParserSpec.name_char; lia|]); apply Forall_nil.
Qed.
Example c86_case : handle_directive ex_conf (knot ex_conf 20) (zs "Show pair ; both") show_state = Ok (Some (zs "; both")) (printed (zs "PAIR(a, b): a+b" ++ [10]) show_state) /\
  not_define ex_conf ex_state (zs "pair") /\ not_define ex_conf ex_state (zs "lab").
Proof.
  split; [|split; [split; reflexivity|split; reflexivity]].
  refine (c86_now ex_conf 20 show_state (zs "Show") (zs " ") (zs "pair") (zs " ") (zs "; both") (mkdefine (zs "PAIR") 1 [] (Some (zs "a+b")) [zs "a"; zs "b"]) eq_refl _ name_pair _ _ _ _).
  - split; [discriminate|]. repeat constructor; unfold UtilsSpec.blank; lia.
  - repeat constructor; unfold UtilsSpec.blank; lia.
  - vm_compute; discriminate.
  - right; exists 59; eexists; split; [reflexivity|]; unfold line_ender; lia.
  - split; [reflexivity|]. split; [reflexivity|]. split; discriminate.
Qed.
(** In whole programs.  The report does not make the status of the run other than 0. *)
Theorem c86_status_refuted : Validate.assemble 100 [] (prog ["x: .show x"; " .db 1"]%string) = Some (0, Some [1], [SPASM_ERR_LABEL_NOT_FOUND]) /\
  Validate.assemble 100 [] (prog [" .show y"; "#define y 3"; " .db y"]%string) = Some (0, Some [3], []).
Proof. vm_compute. split; reflexivity. Qed.
Print Assumptions c86_now.
Print Assumptions c86_later.
Print Assumptions c86_status_refuted.
