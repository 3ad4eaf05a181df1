(** Exit status and output file: C17, C18, C40. *)
From Verif Require Import Base BaseProofs State UtilsModel ErrorsModel StorageModel ParserModel PassTwoModel
  PreopModel PassOneModel DirectiveModel Knot ExportModel MainModel MonadProofs Whole SessionSpec SessionProofs Validate Programs.

Lemma serious_fatal e : serious e <-> fatal_err e = true.
Proof.
  unfold serious, fatal_err, is_fatal, SPASM_ERR_LOCAL_LABEL_FORWARD_REF, SPASM_ERR_LABEL_NOT_FOUND, SPASM_ERR_RECURSION_DEPTH.
  simpl. lia.
Qed.
Lemma clean_start s : s_printed s = [] -> ~ bad s.
Proof. intros E (e & H & _). rewrite E in H. contradiction. Qed.

Lemma arg_define_exit w a p c : arg_define w a p = AExit c -> c = 3.
Proof.
  unfold arg_define. set (C := mkcfg _ _ _ _ _ _ _ _ _ _ _). set (s := init_state _ _ _ _).
  match goal with |- match ?m s with _ => _ end = _ -> _ => assert (G : exits3 _ m) end.
  { pose proof exits3_set_contents. pose proof (exits3_add_define C). unfold read_expr, read_expr'. xs; auto. }
  specialize (G s). match goal with |- match ?m with _ => _ end = _ -> _ => destruct m as [u s1|c1 s1|u|] end; try discriminate.
  intros E. injection E as <-. eapply G. reflexivity.
Qed.

Lemma read_args_exit w l : forall a c, read_args w a l = AExit c -> 0 <= c <= 3.
Proof.
  assert (G : forall k l, (length l <= k)%nat -> forall a c, read_args w a l = AExit c -> 0 <= c <= 3).
  { clear l. induction k as [|k IH]; intros l Hl a c; [destruct l; [discriminate|simpl in Hl; lia]|].
    destruct l as [|arg l]; [discriminate|]. simpl in Hl. cbn [read_args]. unfold EXIT_FATAL_ERROR, EXIT_NORMAL.
    repeat match goal with
    | |- (if ?b then _ else _) = _ -> _ => destruct b
    | |- match ?x with _ => _ end = _ -> _ => let E := fresh in destruct x eqn:E; simpl in Hl
    | |- read_args _ _ _ = _ -> _ => apply IH; simpl; lia
    | |- AExit _ = _ -> _ => let E := fresh in intros E; injection E as <-; first [lia|
        match goal with H : arg_define _ _ _ = AExit _ |- _ => apply arg_define_exit in H; lia end]
    | |- _ => discriminate
    end. }
  intros a c. apply (G (length l)). lia.
Qed.

(** C17: every run that comes to an end has a status between 0 (success) and 3 (fatal error). *)
Theorem c17_status_range fuel w argv c files s :
  main fuel w argv = Done c files s -> 0 <= c <= 3.
Proof.
  intros H. destruct s as [s|].
  - destruct (main_parts _ _ _ _ _ _ H) as (a & input & _ & _ & _ & K). cbv zeta in K.
    destruct K as [(-> & _)|(t & s0 & H1 & H2 & H3 & H4 & H5 & K)]; [vm_compute; split; discriminate|].
    pose proof (grows_parts (mkconf w a) fuel (match a_output a with Some o => o | None => change_extension input (zs "bin") end) t s0) as G.
    destruct K as [K|K]; rewrite K in G.
    + apply parts_ok in K; auto using clean_start; [|lia]. destruct K as (-> & _). unfold grows in G. lia.
    + apply parts_exit in K; auto using clean_start. destruct K as (-> & _). lia.
  - unfold main in H. destruct argv as [|x argv]; [injection H as <- _; vm_compute; split; discriminate|].
    destruct (read_args w args0 (x :: argv)) as [a|c'|] eqn:E; try discriminate.
    + destruct (a_input a); [|injection H as <- _; vm_compute; split; discriminate].
      cbv zeta in H. destruct (run_assembly _ _ _ _ _); discriminate.
    + injection H as <- _. eapply read_args_exit; eauto.
Qed.
Print Assumptions c17_status_range.

(** C17, the part that holds.  A run that ends with every error session closed exactly once
    ([s_sess s = 0]; see [c17_refuted] for a program that closes one twice): a serious problem
    was reported only if the status is 3, the failure status. *)
Theorem c17_failure_status_partial fuel w argv c files s e :
  main fuel w argv = Done c files (Some s) -> s_sess s = 0 ->
  In e (s_printed s) -> serious e -> c = 3.
Proof.
  intros H Hs He Hf. destruct (main_parts _ _ _ _ _ _ H) as (a & input & _ & _ & _ & K). cbv zeta in K.
  destruct K as [(-> & _ & P)|(t & s0 & H1 & H2 & H3 & H4 & H5 & K)]; [rewrite P in He; contradiction|].
  destruct K as [K|K].
  - apply parts_ok in K; auto using clean_start; [|lia]. destruct K as (_ & K & _). exfalso. apply (K Hs). exists e.
    split; [exact He|now apply serious_fatal].
  - apply parts_exit in K; auto using clean_start. apply K.
Qed.
Print Assumptions c17_failure_status_partial.

(** C17: and then the output file was not written, unless the problem was found while writing
    it.  Only the label file of option -L can have been written before. *)
Theorem c17_no_output_partial fuel w argv c files s e :
  main fuel w argv = Done c files (Some s) -> s_sess s = 0 ->
  In e (s_printed s) -> serious e -> ~ from_exporter e ->
  files = [] \/ exists name b, files = [(name, b)] /\ exists a input, read_args w args0 argv = AGo a /\
    a_input a = Some input /\ a_symtable a = true /\
    name = change_extension (match a_output a with Some o => o | None => change_extension input (zs "bin") end) (zs "lab").
Proof.
  intros H Hs He Hf Hx. destruct (main_parts _ _ _ _ _ _ H) as (a & input & Ea & Ei & Ef & K). cbv zeta in Ef, K.
  destruct K as [(-> & _ & P)|(t & s0 & H1 & H2 & H3 & H4 & H5 & K)]; [rewrite P in He; contradiction|].
  apply serious_fatal in Hf.
  destruct K as [K|K].
  - apply parts_ok in K; auto using clean_start; [|lia]. destruct K as (_ & K & _). exfalso. apply (K Hs). exists e. auto.
  - apply parts_exit in K; auto using clean_start. destruct K as (_ & [K|K]).
    + subst files. destruct K as [K|(K1 & b & K)]; rewrite K; [left; reflexivity|]. right. simpl.
      exists (labfile (match a_output a with Some o => o | None => change_extension input (zs "bin") end)), b. split; [reflexivity|].
      exists a, input. auto.
    + exfalso. apply Hx. now apply K.
Qed.
Print Assumptions c17_no_output_partial.

(** C17, the other direction: in normal mode a status other than 3 means that the output file
    was written, last. *)
Theorem c17_success_writes fuel w argv c files s a :
  main fuel w argv = Done c files (Some s) -> c <> 3 ->
  read_args w args0 argv = AGo a -> a_normal a = true ->
  exists input b l, a_input a = Some input /\
    files = l ++ [(match a_output a with Some o => o | None => change_extension input (zs "bin") end, b)].
Proof.
  intros H Hc Ha Hn. destruct (main_parts _ _ _ _ _ _ H) as (a' & input & Ea & Ei & Ef & K). cbv zeta in Ef, K.
  rewrite Ha in Ea. injection Ea as <-.
  destruct K as [(-> & _ & P)|(t & s0 & H1 & H2 & H3 & H4 & H5 & K)]; [exfalso; now apply Hc|].
  destruct K as [K|K].
  - apply parts_ok in K; auto using clean_start; [|lia]. destruct K as (_ & _ & K & _).
    destruct (K Hn) as (b & l & E & _). exists input, b, (rev l). split; [exact Ei|]. subst files. rewrite E. reflexivity.
  - apply parts_exit in K; auto using clean_start. exfalso. apply Hc, K.
Qed.
Print Assumptions c17_success_writes.

(** Without [s_sess s = 0] the claim is false: an expression after a string in .db closes a
    session twice (directive.cpp:532), and errors found afterwards are lost. *)
Definition lost : list text := [prog [" bogus a"; " .db 5"]%string; prog [" .db 1,""x""+1"; " bogus a"; " .db 5"]%string].
Theorem c17_refuted :
  map (assemble 60 []) lost = [Some (3, None, [275]); Some (0, Some [1; 5], [])].
Proof. vm_compute. reflexivity. Qed.
Print Assumptions c17_refuted.

(** The hypotheses are met: a run with a serious problem, one with a label file, one whose
    problem comes from the export, and a successful one. *)
Definition sess_of (o : outcome) : option (Z * Z * list text * list (Z * bool)) :=
  match o with
  | Done c f (Some s) => Some (c, s_sess s, map fst f, map (fun e => (e_code e, eqbl (e_file e) (zs "exporter"))) (s_printed s))
  | _ => None
  end.
Example c17_case :
  sess_of (main 60 (world_of [(zs "a.asm", prog [" bogus a"]%string)]) [zs "a.asm"])
    = Some (3, 0, [], [(275, false)]) /\
  sess_of (main 60 (world_of [(zs "a.asm", prog [" ld a,1"]%string)]) [zs "-L"; zs "a.asm"; zs "a.xyz"])
    = Some (3, 0, [zs "a.lab"; zs "a.xyz"], [(2051, true)]) /\
  sess_of (main 60 (world_of [(zs "a.asm", prog [" ld a,1"]%string)]) [zs "a.asm"])
    = Some (0, 0, [zs "a.bin"], []).
Proof. vm_compute. repeat split. Qed.

(** C18 is false: an unknown label is reported but the status is 0, and the operand keeps the
    placeholder. *)
Theorem c18_refuted :
  assemble 60 [] (prog [" .db nowhere"; " .db 5"]%string) = Some (0, Some [0; 5], [262]).
Proof. vm_compute. reflexivity. Qed.
Print Assumptions c18_refuted.

(** C40 is false: .seek takes any address and the bytes are stored without a check. *)
Theorem c40_refuted :
  main 60 (world_of [(zs "a.asm", prog [" .seek 8000000"; " .db 5"]%string)]) [zs "a.asm"] = Crash UB_outbuf.
Proof. vm_compute. reflexivity. Qed.
Print Assumptions c40_refuted.
