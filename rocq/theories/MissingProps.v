(** Preprocessor lines that lack what they need (preop.cpp:31-263, 272-290, 444-460, 566-580). *)
From Coq Require Import String.
From Verif Require Import Programs.
From Verif Require Import Base BaseProofs State MonadProofs UtilsModel ErrorsModel StorageModel ParserModel PassTwoModel
  PreopModel PassOneModel DirectiveModel Knot MainModel Validate UtilsSpec UtilsProofs UtilsProps StorageProofs PassTwoSpec PassTwoProofs
  ParserSpec ParserProofs ParserProps StringProps InstrSpec MatchSpec MatchProps AsmSpec AsmExpand AsmProofs AsmData AsmLine CondRun DirProps.

(** A word with blanks and the end of the line behind it, or directly a line break. *)
Definition alone (b rest : text) : Prop := Forall UtilsSpec.blank b /\ line_over rest /\ (b <> [] \/ exists c t, rest = c :: t /\ (c = 10 \/ c = 13)).
(** Names, and the error when there is none. *)
Definition needs : list (text * Z) :=
  [(zs "define", SPASM_ERR_NAME_EXPECTED); (zs "undef", SPASM_ERR_NAME_EXPECTED); (zs "undefine", SPASM_ERR_NAME_EXPECTED); (zs "macro", SPASM_ERR_NAME_EXPECTED);
   (zs "ifdef", SPASM_ERR_EXPRESSION_EXPECTED); (zs "ifndef", SPASM_ERR_EXPRESSION_EXPECTED)].

Lemma alone_is b rest : alone b rest -> isspace (hd0 (b ++ rest)) = true /\ skip_ws (b ++ rest) = rest /\ is_eol rest = true.
Proof.
  intros (B & O & N).
  assert (Sk : skip_ws (b ++ rest) = rest /\ is_eol rest = true).
  { rewrite skip_ws_app by exact B. destruct O as [->|(c & t & -> & H)]; [split; reflexivity|]. unfold line_ender in H. split; [apply skip_ws_nonblank; unfold UtilsSpec.blank; lia|cbn; lia]. }
  split; [|exact Sk]. destruct b as [|c b].
  - destruct N as [N|(c & t & -> & [-> | ->])]; [congruence| |]; reflexivity.
  - inversion B as [|? ? H _]; subst. cbn [app hd0]. now apply (blank_space c).
Qed.

Theorem c85_name : forall C n s k code word b rest, In (k, code) needs -> eqbl_ci word k = true -> alone b rest ->
  handle_preop C (knot C n) (word ++ b ++ rest) s = Ok (Some rest) (noted false code s).
Proof.
  intros C n s k code word b rest I W A. destruct (alone_is b rest A) as (Sp & Sk & Ie).
  assert (Wi : word_is word [k] = true) by (unfold word_is; cbn [existsb]; now rewrite W).
  unfold handle_preop. cbn [needs In] in I.
  repeat (destruct I as [I|I]; [injection I as <- <-;
    match type of Wi with word_is _ [?w] = true => let o := eval vm_compute in (find_ci w preops) in match o with Some ?p =>
      destruct (preop_word word [w] (b ++ rest) p Wi ltac:(repeat constructor) Sp) as (E1 & E2 & E3) end end;
    rewrite E1, E2, E3, Sk; unfold preop_define, preop_macro, preop_ifdef; rewrite Ie; reflexivity|]).
  destruct I.
Qed.
(** #include and #import without a file name: the status is at least 2, nothing else. *)
Theorem c85_file : forall C n s word b rest, eqbl_ci word (zs "include") = true \/ eqbl_ci word (zs "import") = true -> alone b rest ->
  handle_preop C (knot C n) (word ++ b ++ rest) s = Ok (Some rest) (set_exitc (Z.max 2 (s_exitc s)) s).
Proof.
  intros C n s word b rest W A. destruct (alone_is b rest A) as (Sp & Sk & Ie).
  assert (Er : (show_error ;;; ret rest) s = Ok rest (set_exitc (Z.max 2 (s_exitc s)) s)).
  { unfold show_error, raise_exit, EXIT_ERRORS. repeat first [rewrite bind_assoc|rewrite bind_get|rewrite bind_upd|rewrite bind_ret].
    replace (if s_exitc s <? 2 then 2 else s_exitc s) with (Z.max 2 (s_exitc s)) by (destruct (s_exitc s <? 2) eqn:L; lia). reflexivity. }
  unfold handle_preop. destruct W as [W|W].
  - destruct (preop_word word [zs "include"] (b ++ rest) P_INCLUDE ltac:(unfold word_is; cbn [existsb]; now rewrite W) ltac:(repeat constructor) Sp) as (E1 & E2 & E3).
    rewrite E1, E2, E3, Sk. unfold preop_include. rewrite Ie. now rewrite (bind_ok _ _ _ _ _ Er).
  - destruct (preop_word word [zs "import"] (b ++ rest) P_IMPORT ltac:(unfold word_is; cbn [existsb]; now rewrite W) ltac:(repeat constructor) Sp) as (E1 & E2 & E3).
    rewrite E1, E2, E3, Sk. unfold preop_import. rewrite Ie. now rewrite (bind_ok _ _ _ _ _ Er).
Qed.
(** #defcont before any #define, whatever stands behind it. *)
Theorem c85_defcont : forall C n s word b rest, eqbl_ci word (zs "defcont") = true -> gap_ok b -> (forall c t, rest = c :: t -> ~ UtilsSpec.blank c) -> s_last_define s = None ->
  handle_preop C (knot C n) (word ++ b ++ rest) s = Ok (Some rest) (noted false SPASM_ERR_NO_PREVIOUS_DEFINE s).
Proof.
  intros C n s word b rest W (Nb & Fb) Hr L.
  assert (Sp : isspace (hd0 (b ++ rest)) = true). { destruct b as [|c b]; [congruence|]. inversion Fb; subst. cbn [app hd0]. now apply (blank_space c). }
  destruct (preop_word word [zs "defcont"] (b ++ rest) P_DEFCONT ltac:(unfold word_is; cbn [existsb]; now rewrite W) ltac:(repeat constructor) Sp) as (E1 & E2 & E3).
  unfold handle_preop. rewrite E1, E2, E3. rewrite skip_ws_app by exact Fb.
  assert (Sk : skip_ws rest = rest). { destruct rest as [|c t]; [reflexivity|]. apply skip_ws_nonblank. now apply (Hr c t). }
  rewrite Sk. unfold preop_defcont. rewrite bind_assoc, bind_get, L. reflexivity.
Qed.
(** #if without a condition is refused as well, but opens a block, which #ifdef does not. *)
Theorem c85_if : forall C n s word b rest, eqbl_ci word (zs "if") = true -> alone b rest ->
  handle_preop C (knot C n) (word ++ b ++ rest) s = Ok (Some rest) (noted false SPASM_ERR_EXPRESSION_EXPECTED (set_iflevel (s_iflevel s + 1) s)).
Proof.
  intros C n s word b rest W A. destruct (alone_is b rest A) as (Sp & Sk & Ie).
  destruct (preop_word word [zs "if"] (b ++ rest) P_IF ltac:(unfold word_is; cbn [existsb]; now rewrite W) ltac:(repeat constructor) Sp) as (E1 & E2 & E3).
  unfold handle_preop. rewrite E1, E2, E3, Sk. rewrite bind_get, bind_upd. unfold handle_preop_if. rewrite Ie. reflexivity.
Qed.
(** These errors end the run with status 3. *)
Theorem c85_ends : forall c s, In c [SPASM_ERR_NAME_EXPECTED; SPASM_ERR_EXPRESSION_EXPECTED; SPASM_ERR_NO_PREVIOUS_DEFINE] ->
  s_sess s = 1 -> end_session 1 (noted false c s) = Exit 3 (set_sess 0 (set_errs (unlead 1 (s_errs s)) s)).
Proof.
  intros c s Hc H. unfold end_session, noted. rewrite bind_get, bind_get, bind_upd, bind_upd. cbn [s_errs set_errs lead unlead e_sess s_sess]. rewrite H.
  cbn [In] in Hc. repeat (destruct Hc as [<-|Hc]; [reflexivity|]). destruct Hc.
Qed.
Example c85_case : alone (zs " ") (zs "; what?") /\ alone [] (10 :: zs " .db 1") /\ s_last_define ex_state = None /\ s_sess ex_state = 1 /\
  handle_preop ex_conf (knot ex_conf 20) (zs "IfNDef ; what?") ex_state = Ok (Some (zs "; what?")) (noted false SPASM_ERR_EXPRESSION_EXPECTED ex_state) /\
  handle_preop ex_conf (knot ex_conf 20) (zs "Import ; what?") ex_state = Ok (Some (zs "; what?")) (set_exitc 2 ex_state) /\
  handle_preop ex_conf (knot ex_conf 20) (zs "defcont 1+2") ex_state = Ok (Some (zs "1+2")) (noted false SPASM_ERR_NO_PREVIOUS_DEFINE ex_state).
Proof.
  assert (A : alone (zs " ") (zs "; what?")).
  { split; [repeat constructor; unfold UtilsSpec.blank; lia|]. split; [right; exists 59; eexists; split; [reflexivity|]; unfold line_ender; lia|left; discriminate]. }
  split; [exact A|]. split; [split; [constructor|]; split; [right; exists 10; eexists; split; [reflexivity|]; unfold line_ender; lia|right; exists 10; eexists; split; [reflexivity|lia]]|].
  split; [reflexivity|]. split; [reflexivity|].
  split; [exact (c85_name ex_conf 20 ex_state (zs "ifndef") _ (zs "IfNDef") (zs " ") (zs "; what?") (or_intror (or_intror (or_intror (or_intror (or_intror (or_introl eq_refl)))))) eq_refl A)|].
  split; [exact (c85_file ex_conf 20 ex_state (zs "Import") (zs " ") (zs "; what?") (or_intror eq_refl) A)|].
  refine (c85_defcont ex_conf 20 ex_state (zs "defcont") (zs " ") (zs "1+2") eq_refl _ _ eq_refl); [split; [discriminate|]; repeat constructor; unfold UtilsSpec.blank; lia|].
  intros c t E. injection E as <- _. unfold UtilsSpec.blank. lia.
Qed.
(** In whole programs. *)
Example c85_runs : Validate.assemble 100 [] (prog [" .db 1"; "#define ; x"]%string) = Some (3, None, [SPASM_ERR_NAME_EXPECTED]) /\
  Validate.assemble 100 [] (prog [" .db 1"; "#macro"]%string) = Some (3, None, [SPASM_ERR_NAME_EXPECTED]) /\
  Validate.assemble 100 [] (prog ["#if"; " .db 1"; "#endif"]%string) = Some (3, None, [SPASM_ERR_EXPRESSION_EXPECTED]) /\
  Validate.assemble 100 [] (prog [" .db 1"; "#include"; " .db 2"]%string) = Some (2, Some [1; 2], []) /\
  Validate.assemble 100 [] (prog [" .db 1"; "#import"; " .db 2"]%string) = Some (2, Some [1; 2], []).
Proof. vm_compute. split; [reflexivity|]. split; [reflexivity|]. split; [reflexivity|]. split; reflexivity. Qed.
Print Assumptions c85_name.
Print Assumptions c85_file.
Print Assumptions c85_defcont.
Print Assumptions c85_if.
Print Assumptions c85_ends.
