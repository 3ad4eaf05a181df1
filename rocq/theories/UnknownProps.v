(** Statements nobody knows (pass_one.cpp:192-262, 312-364; directive.cpp:20-50). *)
From Coq Require Import String.
From Verif Require Import Programs.
From Verif Require Import Base BaseProofs State MonadProofs UtilsModel ErrorsModel StorageModel ParserModel PassTwoModel
  PreopModel PassOneModel DirectiveModel OpcodeTables Knot MainModel Validate UtilsSpec UtilsProofs UtilsProps StorageProofs PassTwoSpec PassTwoProofs
  ParserSpec ParserProofs ParserProps StringProps InstrSpec MatchSpec MatchProps AsmSpec AsmExpand AsmProofs AsmData AsmLine AddProps DirProps.

(** [name] is, in whatever letters, no instruction; and no define, macro or argument. *)
Definition unknown (C : cfg) (s : st) (name : text) : Prop :=
  Forall (fun o => Forall (fun c => isalnum c = true) (op_name o) /\ eqbl_ci name (op_name o) = false) (s_opcodes s) /\
  find_arg (key C name) (s_args s) = None /\ tfind (key C name) (s_defines s) = None.
(** The name ends before [rest], and no parenthesis follows. *)
Definition name_over (rest : text) : Prop := rest = [] \/ exists c t, rest = c :: t /\ ~ ParserSpec.name_char c /\ c <> 40.

Lemma over_no_name rest : name_over rest -> is_name_char (hd0 rest) = false /\ isalnum (hd0 rest) = false /\ (hd0 rest =? 40) = false.
Proof.
  intros [->|(c & t & -> & N & H)]; [repeat split|]. cbn [hd0].
  assert (Q : is_name_char c = false).
  { destruct (is_name_char c) eqn:E; [|reflexivity]. exfalso. apply N. unfold is_name_char, isalnum, isalpha, isupper, islower, isdigit in E. cbn [memb existsb] in E. unfold ParserSpec.name_char.
    change (zs "_[]!?.") with [95; 91; 93; 33; 63; 46]. cbn [In]. lia. }
  split; [exact Q|]. split; [|lia]. unfold is_name_char in Q. now destruct (isalnum c).
Qed.
Lemma word_unknown C n s name rest : c_ez80 C = false -> Forall ParserSpec.name_char name -> name_over rest -> unknown C s name ->
  handle_opcode_or_macro C (knot C n) (name ++ rest) s = Ok rest (noted false SPASM_ERR_UNKNOWN_OPCODE s).
Proof.
  intros Ez F O (U & A & D). destruct (over_no_name rest O) as (N1 & N2 & N3).
  unfold handle_opcode_or_macro. rewrite (skip_name_app name rest F N1), seg_app. cbv zeta. rewrite bind_get, bind_get, Ez.
  assert (E : find_opcode (name ++ rest) (length name) (s_opcodes s) = []).
  { induction U as [|o l (P & Q) _ IH]; [reflexivity|]. cbn [find_opcode]. destruct (strncaseq _ _ (op_name o)) eqn:S; [|exact IH].
    apply strncaseq_exact in S; [|exact P|exact N2]. congruence. }
  rewrite E, N3, !andb_false_r.
  assert (Sd : search_defines C name true s = Ok None s).
  { unfold search_defines. cbv zeta. rewrite bind_get, bind_get, A, D. destruct (eqbl _ _); [reflexivity|]. destruct (eqbl _ _); reflexivity. }
  rewrite (bind_ok _ _ _ _ _ Sd). reflexivity.
Qed.

(** After blanks, a word that is no instruction, macro or define is refused; nothing else changes. *)
Theorem c92_word : forall C n s b name rest, c_ez80 C = false -> b <> [] -> Forall UtilsSpec.blank b -> ParserSpec.name_ok name -> name_over rest -> unknown C s name ->
  line_sec C (knot C n) (S (length (b ++ name ++ rest))) (b ++ name ++ rest) s = Ok (Some rest) (noted false SPASM_ERR_UNKNOWN_OPCODE s).
Proof.
  intros C n s b name rest Ez Nb B Nm O U. pose proof Nm as (_ & (c & t & En & Hc) & Fn).
  destruct b as [|x b]; [contradiction Nb; reflexivity|]. inversion B as [|? ? Bx B']; subst x0 l.
  cbn [line_sec app]. replace (is_eol (x :: b ++ name ++ rest)) with false by (unfold is_eol, UtilsSpec.blank in *; lia).
  cbn [hd0]. replace (isalpha x || (x =? 95)) with false by (unfold isalpha, isupper, islower, UtilsSpec.blank in *; lia).
  replace (isspace x) with true by (unfold isspace, UtilsSpec.blank in *; lia). cbv zeta.
  change (x :: b ++ name ++ rest) with ((x :: b) ++ name ++ rest). rewrite skip_ws_app by exact B.
  replace (skip_ws (name ++ rest)) with (name ++ rest) by (rewrite En; cbn [app]; symmetry; apply skip_ws_nonblank; unfold name_start, UtilsSpec.blank in *; lia).
  replace (isalpha (hd0 (name ++ rest)) || (hd0 (name ++ rest) =? 95)) with true by (rewrite En; cbn [app hd0]; unfold isalpha, isupper, islower, name_start in *; lia).
  rewrite (bind_ok _ _ _ _ _ (word_unknown C n s name rest Ez Fn O U)). reflexivity.
Qed.

(** The directives of the manual. *)
Definition known_directives : list text :=
  [zs "db"; zs "dw"; zs "end"; zs "org"; zs "byte"; zs "word"; zs "fill"; zs "block"; zs "addinstr"; zs "echo"; zs "error"; zs "list"; zs "nolist"; zs "equ"; zs "show";
   zs "option"; zs "seek"; zs "assume"; zs "dl"; zs "long"].
(** A word after a dot that is no directive, and with its dot no instruction, macro or define. *)
Theorem c92_directive : forall C n s word gap b, c_ez80 C = false -> Forall ParserSpec.name_char word -> gap_ok gap ->
  Forall (fun k => eqbl_ci k word = false) known_directives -> unknown C s (46 :: word) ->
  handle_directive C (knot C n) (word ++ gap ++ b) s = Ok (Some (gap ++ b)) (noted false SPASM_ERR_UNKNOWN_OPCODE s).
Proof.
  intros C n s word gap b Ez F G K U. unfold handle_directive.
  assert (Fs : Forall (fun c => isspace c = false) word).
  { eapply Forall_impl; [|exact F]. intros c H. unfold ParserSpec.name_char in H. change (zs "_[]!?.") with [95; 91; 93; 33; 63; 46] in H. cbn [In] in H. unfold isspace. lia. }
  rewrite (skip_word word gap b Fs G), seg_app.
  assert (E : find_ci word directives = None).
  { clear -K. unfold known_directives in K. unfold directives. repeat match goal with H : Forall _ (_ :: _) |- _ => inversion H; clear H; subst end.
    cbn [find_ci]. repeat match goal with H : eqbl_ci _ word = false |- _ => rewrite H; clear H end. reflexivity. }
  rewrite E. replace (if Nat.ltb (length word) 32 then None else None) with (@None directive) by (now destruct (Nat.ltb (length word) 32)). cbv zeta.
  change (46 :: word ++ gap ++ b) with ((46 :: word) ++ gap ++ b).
  rewrite (bind_ok _ _ _ _ _ (word_unknown C n s (46 :: word) (gap ++ b) Ez ltac:(constructor; [unfold ParserSpec.name_char; change (zs "_[]!?.") with [95; 91; 93; 33; 63; 46]; cbn [In]; tauto|exact F])
    ltac:(destruct G as (Gn & Gb); destruct gap as [|c g]; [contradiction Gn; reflexivity|]; right; exists c, (g ++ b); split; [reflexivity|]; inversion Gb; subst; unfold ParserSpec.name_char, UtilsSpec.blank in *;
      change (zs "_[]!?.") with [95; 91; 93; 33; 63; 46]; cbn [In]; lia) U)). reflexivity.
Qed.

(** A line that begins with a character that begins no statement. *)
Theorem c92_syntax : forall C n s c rest, ~ name_start c -> ~ UtilsSpec.blank c -> ~ line_ender c -> ~ 9 <= c <= 13 -> ~ In c (zs ".#=") ->
  line_sec C (knot C n) (S (length (c :: rest))) (c :: rest) s = Ok (Some (c :: rest)) (noted false SPASM_ERR_SYNTAX s).
Proof.
  intros C n s c rest N1 N2 N3 N4 N5. change (zs ".#=") with [46; 35; 61] in N5. cbn [In] in N5. unfold name_start, UtilsSpec.blank, line_ender in *.
  cbn [line_sec]. replace (is_eol (c :: rest)) with false by (unfold is_eol; lia). cbn [hd0].
  replace (isalpha c || (c =? 95)) with false by (unfold isalpha, isupper, islower; lia). replace (isspace c) with false by (unfold isspace; lia).
  replace (c =? 46) with false by lia. replace (c =? 35) with false by lia. replace (c =? 61) with false by lia. reflexivity.
Qed.
(** Both errors end the run with status 3. *)
Theorem c92_ends : forall c s, In c [SPASM_ERR_UNKNOWN_OPCODE; SPASM_ERR_SYNTAX] ->
  s_sess s = 1 -> end_session 1 (noted false c s) = Exit 3 (set_sess 0 (set_errs (unlead 1 (s_errs s)) s)).
Proof.
  intros c s Hc H. unfold end_session, noted. rewrite bind_get, bind_get, bind_upd, bind_upd. cbn [s_errs set_errs lead unlead e_sess s_sess]. rewrite H.
  cbn [In] in Hc. repeat (destruct Hc as [<-|Hc]; [reflexivity|]). destruct Hc.
Qed.
Definition full_state : st := set_opcodes opcode_list ex_state.
Lemma foo_unknown : unknown ex_conf full_state (zs "foo") /\ unknown ex_conf full_state (zs ".foo").
Proof.
  assert (K : forall m, forallb (fun o => forallb isalnum (op_name o) && negb (eqbl_ci m (op_name o))) opcode_list = true ->
    Forall (fun o => Forall (fun c => isalnum c = true) (op_name o) /\ eqbl_ci m (op_name o) = false) opcode_list).
  { intros m H. rewrite forallb_forall in H. apply Forall_forall. intros o Ho. specialize (H o Ho). apply andb_true_iff in H as (H1 & H2). split; [|now apply negb_true_iff].
    apply Forall_forall. now rewrite forallb_forall in H1. }
  split; (split; [apply K; vm_compute; reflexivity|split; reflexivity]).
Qed.
Example c92_case : line_sec ex_conf (knot ex_conf 1) 11 (zs "  foo a,b ") full_state = Ok (Some (zs " a,b ")) (noted false 275 full_state) /\
  handle_directive ex_conf (knot ex_conf 1) (zs "foo a,b") full_state = Ok (Some (zs " a,b")) (noted false 275 full_state).
Proof.
  destruct foo_unknown as (U1 & U2). assert (F : Forall ParserSpec.name_char (zs "foo")).
  { let r := eval vm_compute in (zs "foo") in change (zs "foo") with r. repeat (apply Forall_cons; [unfold ParserSpec.name_char; lia|]). apply Forall_nil. }
  split.
  - apply (c92_word ex_conf 1 full_state (zs "  ") (zs "foo") (zs " a,b ")); [reflexivity|discriminate|repeat constructor; unfold UtilsSpec.blank; lia| | |exact U1].
    + split; [discriminate|]. split; [exists 102, (zs "oo"); split; [reflexivity|unfold name_start; lia]|exact F].
    + right. exists 32, (zs "a,b "). split; [reflexivity|]. split; [|lia]. unfold ParserSpec.name_char. change (zs "_[]!?.") with [95; 91; 93; 33; 63; 46]. cbn [In]. lia.
  - apply (c92_directive ex_conf 1 full_state (zs "foo") (zs " ") (zs "a,b")); [reflexivity|exact F|split; [discriminate|repeat constructor; unfold UtilsSpec.blank; lia]|repeat constructor|exact U2].
Qed.
Example c92_runs : Validate.assemble 100 [] (prog [" .db 1"; " foo 2"]%string) = Some (3, None, [275]) /\
  Validate.assemble 100 [] (prog [" .db 1"; " .foo 2"]%string) = Some (3, None, [275]) /\
  Validate.assemble 100 [] (prog [" .db 1"; "5x: .db 2"]%string) = Some (3, None, [281]).
Proof. vm_compute. split; [reflexivity|]. split; reflexivity. Qed.
Print Assumptions c92_word.
Print Assumptions c92_directive.
Print Assumptions c92_syntax.
Print Assumptions c92_ends.
