(** Files that include themselves and defines that stand for themselves (preop.cpp:444-557; pass_one.cpp:116-262, 429-520). *)
From Coq Require Import String.
From Verif Require Import Programs.
From Verif Require Import Base BaseProofs State MonadProofs UtilsModel ErrorsModel StorageModel ParserModel PassTwoModel
  BitmapModel PreopModel PassOneModel DirectiveModel Knot MainModel Validate OpcodeTables AsmProofs AsmProps.

(** A file whose one line includes the file itself. *)
Definition self_name : text := zs "/w/a.asm".
Definition self_line : text := zs "#include ""/w/a.asm""" ++ [10].

Lemma include_endless C k : c_files C self_name = Some self_line -> (forall s, s_erroc s = false -> f_pass (knot C k) self_line s = NoFuel) ->
  forall s, s_erroc s = false -> handle_preop C (knot C k) (tl self_line) s = NoFuel.
Proof.
  intros F IH s E.
  assert (H : handle_preop C (knot C k) (tl self_line) s = (q <- preop_include C (knot C k) (zs """/w/a.asm""" ++ [10]) ;; ret (Some q)) s) by reflexivity.
  rewrite H. unfold bind at 1. unfold preop_include. change (is_eol (zs """/w/a.asm""" ++ [10])) with false. cbv iota.
  assert (R : read_expr (zs """/w/a.asm""" ++ [10]) [] s = Ok (mkrx true [10] (zs """/w/a.asm""") false) s) by reflexivity.
  rewrite (bind_ok _ _ _ _ _ R). cbv zeta. cbn [rx_ptr rx_word].
  change (existsb _ (zs """/w/a.asm""")) with false. cbv iota.
  change (unquote (fix_filename (zs """/w/a.asm"""))) with self_name.
  unfold full_path. rewrite bind_assoc, bind_get, bind_ret. unfold exists_file. rewrite F. change (is_abs_path self_name && true) with true. cbv iota. rewrite F.
  change (is_bitmap self_line) with false. cbv iota. change (get_file_contents self_line) with (Some self_line). cbv iota.
  repeat first [rewrite bind_get|rewrite bind_upd]. change (until_nul self_line) with self_line.
  unfold bind at 1. rewrite IH; [reflexivity|exact E].
Qed.
Lemma pass_endless C : c_files C self_name = Some self_line -> forall n s, s_erroc s = false -> run_first_pass C (knot C n) self_line s = NoFuel.
Proof.
  intros F n. induction n as [n IH] using (well_founded_induction Wf_nat.lt_wf). intros s E.
  unfold run_first_pass. rewrite bind_upd.
  set (s1 := set_line 1 s).
  assert (A : exists s2, whenM (c_ez80 C) (upd (set_adl true)) s1 = Ok tt s2 /\ s_erroc s2 = false) by (destruct (c_ez80 C); eexists; (split; [reflexivity|exact E])).
  destruct A as (s2 & A & E2). rewrite (bind_ok _ _ _ _ _ A).
  destruct n as [|n]; [reflexivity|]. cbn [knot f_n pass_loop]. rewrite bind_get, E2.
  change (self_line) with (35 :: tl self_line) at 1. cbv iota. cbn [f_line].
  destruct n as [|n]; [reflexivity|]. unfold bind at 1, run_first_pass_line. cbn [knot f_n line_loop].
  change (skip_char 92 self_line) with self_line.
  assert (L : forall s, s_erroc s = false -> line_sec C (knot C (S n)) (S (length self_line)) self_line s = NoFuel).
  { intros s3 E3. change (line_sec C (knot C (S n)) (S (length self_line)) self_line s3) with (handle_preop C (knot C n) (tl self_line) s3).
    apply include_endless; [exact F| |exact E3]. intros s4 E4. destruct n as [|n]; [reflexivity|]. cbn [knot f_pass]. apply IH; [lia|exact E4]. }
  unfold bind at 1. cbn [knot] in L. now rewrite L.
Qed.
(** Whatever the output file and however many nested calls are allowed, no run on such a file comes
    to an end: there is no message, and no status. *)
Theorem c91_include_refuted : forall w fuel output, w_files w self_name = Some self_line -> hd0 output <> 45 -> main fuel w [self_name; output] = OutOfFuel.
Proof.
  intros w fuel output F Ho. unfold main. change [self_name; output] with (command false false self_name output). rewrite (read_command w false false self_name output); [|vm_compute; discriminate|exact Ho].
  unfold command. cbn [app a_input a_output a_defs a_ez80 a_dirs a_line]. match goal with |- context [mkconf w ?x] => set (C := mkconf w x) end. assert (FC : c_files C self_name = Some self_line) by exact F.
  unfold run_assembly. rewrite bind_upd, bind_get. match goal with |- context [c_files C ?x] => change (c_files C x) with (c_files C self_name) end. rewrite FC. change (get_file_contents self_line) with (Some self_line). cbv iota.
  rewrite bind_get, bind_upd. unfold start_session. repeat first [rewrite bind_assoc|rewrite bind_get|rewrite bind_upd|rewrite bind_ret].
  change (until_nul self_line) with self_line. unfold bind at 1. rewrite (pass_endless C FC); reflexivity.
Qed.
Example c91_case : exists w, w_files w self_name = Some self_line /\ main 300 w [self_name; zs "o.bin"] = OutOfFuel.
Proof. exists (world_of [(self_name, self_line)]). split; vm_compute; reflexivity. Qed.

(** ** A define that stands for itself, used as a statement *)
Definition own_name : text := zs "zz".
(** The name is defined as itself, there are no errors yet, and no macro is under way. *)
Record own_state (s : st) : Prop := {
  o_erroc : s_erroc s = false;
  o_ops : s_opcodes s = opcode_list;
  o_args : s_args s = [];
  o_errs : s_errs s = [];
  o_def : exists d, tfind (zs "ZZ") (s_defines s) = Some d /\ d_contents d = Some own_name /\ d_args d = [] }.
Lemma own_endless C n : c_ez80 C = false -> c_case C = false -> forall e, e = [] \/ e = [10] -> forall s, own_state s -> f_line (knot C n) (32 :: own_name ++ e) s = NoFuel.
Proof.
  intros Ez Cc. induction n as [n IH] using (well_founded_induction Wf_nat.lt_wf). intros e He s O.
  destruct n as [|n]; [reflexivity|]. cbn [knot f_line]. unfold run_first_pass_line. destruct n as [|n]; [reflexivity|]. cbn [knot f_n line_loop].
  change (skip_char 92 (32 :: own_name ++ e)) with (32 :: own_name ++ e).
  fold (knot C). set (R := mkfns _ _ _ _ _ _ _ _ _).
  change R with (knot C (S n)). clear R.
  assert (L : line_sec C (knot C (S n)) (S (length (32 :: own_name ++ e))) (32 :: own_name ++ e) s = (q <- handle_opcode_or_macro C (knot C (S n)) (own_name ++ e) ;; ret (Some q)) s) by (destruct He as [-> | ->]; reflexivity).
  unfold bind at 1. rewrite L. unfold bind at 1.
  enough (H : handle_opcode_or_macro C (knot C (S n)) (own_name ++ e) s = NoFuel) by now rewrite H.
  unfold handle_opcode_or_macro. replace (skip_to_name_end (own_name ++ e)) with e by (destruct He as [-> | ->]; reflexivity).
  replace (seg (own_name ++ e) e) with own_name by (destruct He as [-> | ->]; reflexivity).
  cbv zeta. rewrite bind_get, bind_get, Ez, (o_ops s O).
  replace (find_opcode (own_name ++ e) (length own_name) opcode_list) with (@nil opcode) by (destruct He as [-> | ->]; vm_compute; reflexivity).
  replace (hd0 e =? 40) with false by (destruct He as [-> | ->]; reflexivity). rewrite !andb_false_r.
  destruct (o_def s O) as (d & D1 & D2 & D3).
  assert (Sd : search_defines C own_name true s = Ok (Some (RG (zs "ZZ"))) s).
  { assert (K : key C own_name = zs "ZZ") by (unfold key; rewrite Cc; reflexivity).
    unfold search_defines. rewrite K. cbv zeta. rewrite bind_get, bind_get, (o_args s O). cbn [find_arg]. rewrite D1. reflexivity. }
  rewrite (bind_ok _ _ _ _ _ Sd).
  unfold run_macro, start_session. repeat first [rewrite bind_assoc|rewrite bind_get|rewrite bind_upd|rewrite bind_ret].
  set (s1 := set_sess _ s).
  assert (Gd : forall s', s_defines s' = s_defines s -> get_define (RG (zs "ZZ")) s' = Ok d s').
  { intros s' E. unfold get_define, lookup_ref. rewrite E, D1. reflexivity. }
  unfold parse_args. rewrite bind_assoc, (bind_ok _ _ _ _ _ (Gd s1 eq_refl)), D3. replace (hd0 e =? 40) with false by (destruct He as [-> | ->]; reflexivity).
  cbn [negb andb length Nat.eqb]. rewrite bind_ret, bind_get. change (s_errs s1) with (s_errs s). rewrite (o_errs s O). cbn [sess_fatal lead existsb].
  rewrite bind_assoc, (bind_ok _ _ _ _ _ (Gd s1 eq_refl)), D2. replace (is_eol (skip_ws e)) with true by (destruct He as [-> | ->]; reflexivity). cbn [negb].
  repeat first [rewrite bind_assoc|rewrite bind_get|rewrite bind_upd|rewrite bind_ret].
  set (s2 := set_line _ _).
  change (f_n (knot C (S n))) with (S n). cbn [macro_lines]. rewrite bind_assoc, bind_get. change (s_erroc s2) with (s_erroc s). rewrite (o_erroc s O).
  rewrite bind_assoc. unfold bind at 1. change (32 :: own_name) with (32 :: own_name ++ []). rewrite IH; [reflexivity|lia|now left|].
  split; try apply O.
Qed.
(** No run on a program that uses such a define comes to an end. *)
Definition own_line : text := 32 :: own_name ++ [10].
Theorem c91_define_refuted : forall w fuel, w_files w (zs "in") = Some own_line -> main fuel w [zs "-Dzz=zz"; zs "in"; zs "o.bin"] = OutOfFuel.
Proof.
  intros w fuel F. unfold main.
  assert (A : exists defs, read_args w args0 [zs "-Dzz=zz"; zs "in"; zs "o.bin"] = AGo (mkargs true false false false false false (Some (zs "in")) (Some (zs "o.bin")) None [] (Some defs)) /\
    exists d, tfind (zs "ZZ") defs = Some d /\ d_contents d = Some own_name /\ d_args d = []).
  { eexists. split; [reflexivity|]. eexists. split; [vm_compute; reflexivity|]. split; reflexivity. }
  destruct A as (defs & A & Hd). rewrite A. cbn [a_input a_output a_defs a_ez80 a_dirs a_line].
  match goal with |- context [mkconf w ?x] => set (C := mkconf w x) end. assert (FC : c_files C (zs "in") = Some own_line) by exact F.
  unfold run_assembly. rewrite bind_upd, bind_get. match goal with |- context [c_files C ?x] => change (c_files C x) with (c_files C (zs "in")) end. rewrite FC.
  change (get_file_contents own_line) with (Some own_line). cbv iota.
  rewrite bind_get, bind_upd. unfold start_session. repeat first [rewrite bind_assoc|rewrite bind_get|rewrite bind_upd|rewrite bind_ret].
  change (until_nul own_line) with own_line. unfold bind at 1, run_first_pass. change (c_ez80 C) with false. cbn [whenM]. unfold whenM. rewrite bind_upd, bind_ret.
  match goal with |- context [pass_loop _ _ _ ?x] => set (s := x) end.
  enough (P : pass_loop (knot C fuel) (f_n (knot C fuel)) own_line s = NoFuel) by now rewrite P.
  destruct fuel as [|n]; [reflexivity|]. change (f_n (knot C (S n))) with (S n). cbn [pass_loop]. rewrite bind_get. change (s_erroc s) with false.
  unfold own_line at 1. cbv iota. unfold bind at 1. change own_line with (32 :: own_name ++ [10]). rewrite own_endless; [reflexivity|reflexivity|reflexivity|now right|].
  split; try reflexivity. exact Hd.
Qed.
Example c91_define_case : exists w, w_files w (zs "in") = Some own_line /\ main 300 w [zs "-Dzz=zz"; zs "in"; zs "o.bin"] = OutOfFuel.
Proof. exists (world_of [(zs "in", own_line)]). split; vm_compute; reflexivity. Qed.
Print Assumptions c91_include_refuted.
Print Assumptions c91_define_refuted.
