(** C78: asking for a label file does not change the code. *)
From Coq Require Import String.
From Verif Require Import Programs Base BaseProofs State UtilsModel ErrorsModel StorageModel ParserModel PassTwoModel
  PreopModel PassOneModel DirectiveModel Knot ExportModel IhexModel MainModel MonadProofs EvalSpec EvalProofs SecondProps
  SessionSpec SessionProofs InvProps.

(** The same options, with and without -L. *)
Definition labelled (b : bool) (a : args) : args :=
  mkargs (a_normal a) (a_list a) (a_counter a) b (a_ez80 a) (a_case a) (a_input a) (a_output a) (a_line a) (a_dirs a) (a_defs a).

(** The option is not looked at while a program is read. *)
Lemma knot_labelled w a n : knot (mkconf w (labelled true a)) n = knot (mkconf w (labelled false a)) n.
Proof.
  induction n as [|n IH]; [reflexivity|]. cbn [knot]. rewrite IH. generalize (knot (mkconf w (labelled false a)) n). intros R. cbv zeta.
  f_equal; reflexivity.
Qed.
Lemma part12_labelled w a n t s : a_normal a = true ->
  part12 (mkconf w (labelled true a)) n t s = part12 (mkconf w (labelled false a)) n t s.
Proof.
  intros H. unfold part12. rewrite knot_labelled. generalize (knot (mkconf w (labelled false a)) n). intros R.
  change (c_symtable (mkconf w (labelled true a)) || c_normal (mkconf w (labelled true a)) || c_list (mkconf w (labelled true a))) with true.
  change (c_symtable (mkconf w (labelled false a)) || c_normal (mkconf w (labelled false a)) || c_list (mkconf w (labelled false a)))
    with (a_normal a || a_list a). rewrite H. cbn [orb]. reflexivity.
Qed.

(** Listing the defines writes no code. *)
Lemma EV_lab_defines C n t : forall l, Forall (fun e => oclean (d_contents (snd e))) t -> EV any never (lab_defines (knot C n) t l).
Proof.
  induction t as [|[k d] t IH]; intros l H; cbn [lab_defines]; [apply EV_ret; [exact I|reflexivity]|].
  inversion H as [|? ? H1 H2]; subst. cbn [snd] in H1. eapply EV_bind with (Q1 := any) (F1 := never).
  - destruct (d_args d); [|apply EV_ret; [exact I|reflexivity]]. destruct (d_contents d) as [c|]; [|apply EV_ret; [exact I|reflexivity]].
    eapply EV_bind; [apply (EV_parse_num _ (vf_full _ (knot_ev C n)) c H1)|]. intros v _. apply EV_ret; [exact I|reflexivity].
  - intros l' _. eapply EV_weak; [apply IH, H2|auto|]. intros ?. discriminate.
Qed.

(** The state between the passes and the writing of the files: nothing is left open, and no
    define or argument has a '#' in it. *)
Record settled (s : st) : Prop := mksettled {
  st_sess : s_sess s = 0;
  st_file : clean (s_file s);
  st_defs : tok (s_defines s);
  st_args : atok (s_args s) }.
Lemma core_mem s s' : core s' = core s -> s_mem s' = s_mem s.
Proof. intros H. exact (f_equal s_mem H). Qed.
Lemma core_pos s s' : core s' = core s -> s_pos s' = s_pos s.
Proof. intros H. exact (f_equal s_pos H). Qed.
Lemma listed_same C n s s' : settled s -> s_errs s = [] -> listed C n s = Some s' -> s_mem s' = s_mem s /\ s_pos s' = s_pos s.
Proof.
  intros [H1 H2 H3 H4] He. unfold listed. destruct (c_symtable C); [|intros E; injection E as <-; split; reflexivity].
  rewrite !bind_get. simpl. set (s0 := set_sess _ _).
  assert (I0 : inv s0). { unfold s0. split; simpl; auto; [lia|]. rewrite He. constructor. }
  pose proof (EV_lab_defines C n (s_defines s) (lab_labels (s_labels s)) (proj2 H3) s0 I0) as K.
  destruct (lab_defines _ _ _ s0) as [l s2|c s2| |]; try discriminate. intros E. injection E as <-. destruct K as (K & _).
  apply ev_core in K. split; [exact (core_mem _ _ K)|exact (core_pos _ _ K)].
Qed.

(** What is written depends on the code, its length and the name only. *)
Lemma bind_same_out {A B} (m : M A) (k : A -> M B) s b s' : bind m k s = Ok b s' -> exists a s1, m s = Ok a s1 /\ k a s1 = Ok b s'.
Proof. apply bind_inv_ok. Qed.
Definition calc_of (name : text) : calc_type :=
  match file_ext name with None => TYPE_BIN | Some e => match find_ext e extensions with Some t => t | None => TYPE_BIN end end.
Definition out_of (C : cfg) (mem : list Z) (len : Z) (name : text) : list Z :=
  let data := image_of mem len in
  match calc_of name with
  | TYPE_BIN => data
  | TYPE_ROM => makerom data
  | TYPE_HEX => intelhex data
  | TYPE_8XK => match app_fields data with inl _ => [] | inr (prog, pages, nm) => app_file (c_md5 C) prog pages nm end
  | c => makeprgm_bytes c (file_stem name) data
  end.
Lemma problem_out w c s : exists s', set_problem w c s = Ok tt s' /\ s_outfiles s' = s_outfiles s.
Proof. eexists. split; reflexivity. Qed.
Lemma write_file_out C mem len name s s' : write_file C mem len name s = Ok tt s' ->
  s_outfiles s' = (name, out_of C mem len name) :: s_outfiles s.
Proof.
  unfold write_file. rewrite !bind_upd. intros E. apply bind_inv_ok in E as (c & s1 & E1 & E).
  assert (G : c = calc_of name /\ s_outfiles s1 = s_outfiles s).
  { revert E1. unfold calc_of. destruct (file_ext name) as [e|]; [destruct (find_ext e extensions)|]; intros E1; injection E1 as <- <-; split; reflexivity. }
  clear E1. destruct G as (-> & G). destruct (OUTPUT_BUF_SIZE <? len); [discriminate|]. cbv zeta in E.
  apply bind_inv_ok in E as (o & s2 & E2 & E). rewrite bind_get in E. rewrite bind_upd in E. injection E as <-. simpl.
  assert (K : o = out_of C mem len name /\ s_outfiles s2 = s_outfiles s1).
  { clear G. revert E2. unfold out_of. cbv zeta. set (data := image_of mem len). generalize (calc_of name). clearbody data. intros c.
    assert (P : forall c s2 o, (if len <? 0 then undef UB_outbuf else makeprgm_warnings (c_ez80 C) c (file_stem name) data ;;;
              ret (makeprgm_bytes c (file_stem name) data)) s1 = Ok o s2 ->
              o = makeprgm_bytes c (file_stem name) data /\ s_outfiles s2 = s_outfiles s1).
    { clear. intros c s2 o. destruct (len <? 0); [discriminate|]. intros E. apply bind_inv_ok in E as ([] & s3 & E1 & E). injection E as <- <-.
      split; [reflexivity|]. revert E1. unfold makeprgm_warnings, show_warning, raise_exit, set_warning, set_error, whenM.
      repeat match goal with |- context [if ?b then _ else _] => destruct b end; unfold bind, ret; cbn; intros E; injection E as <-; reflexivity. }
    destruct c; try exact (P _ _ _); clear P.
    - destruct (len <? 0); [discriminate|]. unfold makeapp. destruct (app_fields data) as [code|[[prog pages] nm]].
      + unfold set_warning, set_error, whenM. destruct (_ && _); unfold bind, ret; cbn; intros E; injection E as <- <-; split; reflexivity.
      + generalize (app_file (c_md5 C) prog pages nm). intros file. unfold set_warning, whenM. destruct (_ && _); unfold bind, ret; cbn; intros E; injection E as <- <-; split; reflexivity.
    - destruct (len <? 0); [discriminate|]. intros E. injection E as <- <-. split; reflexivity.
    - destruct (len <? 0); [discriminate|]. intros E. injection E as <- <-. split; reflexivity.
    - intros E. injection E as <- <-. split; reflexivity. }
  destruct K as (-> & K). rewrite K, G. reflexivity.
Qed.

(** The state in which the two passes leave a program. *)
Definition passed (fuel : nat) (w : world) (a : args) : option st :=
  match a_input a with
  | None => None
  | Some input =>
    match (match a_line a with
           | Some t => Some t
           | None => match w_files w input with Some b => get_file_contents b | None => None end
           end) with
    | None => None
    | Some t =>
      match part12 (mkconf w a) fuel (until_nul t)
              (set_incdirs (c_cwd (mkconf w a) :: a_dirs a) (reset_run (init_state (a_ez80 a) input (a_dirs a)
                 (match a_defs a with Some d => d | None => init_defines input end)))) with
      | Ok _ s => Some s
      | _ => None
      end
    end
  end.
Lemma passed_labelled fuel w a : a_normal a = true -> passed fuel w (labelled true a) = passed fuel w (labelled false a).
Proof.
  intros H. unfold passed. cbn [labelled a_input a_line a_ez80 a_dirs a_defs]. destruct (a_input a) as [i|]; [|reflexivity].
  destruct (match a_line a with Some t => Some t | None => _ end) as [t|]; [|reflexivity].
  change (c_cwd (mkconf w (labelled true a))) with (c_cwd (mkconf w (labelled false a))). now rewrite part12_labelled.
Qed.
(** A run that was completed: the files are those of the phases. *)
Lemma main_done fuel w argv a c f s : read_args w args0 argv = AGo a -> a_normal a = true ->
  main fuel w argv = Done c f (Some s) -> c <> 3 ->
  exists input s1 s2, a_input a = Some input /\ passed fuel w a = Some s1 /\ s_outfiles s1 = [] /\ (s_sess s1 = 0 -> s_errs s1 = []) /\
    let output := match a_output a with Some o => o | None => change_extension input (zs "bin") end in
    part3 (mkconf w a) fuel output s1 = Ok tt s2 /\
    f = rev (s_outfiles s2) ++ [(output, out_of (mkconf w a) (s_mem s2) (s_pos s2) output)].
Proof.
  intros Ha Hn H Hc. unfold main in H. destruct argv as [|x argv]; [discriminate|]. rewrite Ha in H.
  destruct (a_input a) as [input|] eqn:Ei; [|discriminate]. exists input. cbv zeta in *. unfold passed. rewrite Ei.
  set (output := match a_output a with Some o => o | None => _ end) in *.
  rewrite run_parts in H. cbv zeta in H. set (s0 := reset_run _) in *.
  change (s_file s0) with input in H. change (c_files (mkconf w a)) with (w_files w) in H. change (s_incdirs s0) with (a_dirs a) in H.
  destruct (match a_line a with Some t => Some t | None => _ end) as [t|].
  2:{ injection H as <- _. exfalso. now apply Hc. }
  set (s1 := set_incdirs _ s0) in *.
  destruct (parts (mkconf w a) fuel output (until_nul t) s1) as [c' s'|c' s'| |] eqn:E; try discriminate; injection H as <- <- <-.
  2:{ apply parts_exit in E; auto; [|intros (e & K & _); exact K]. exfalso. apply Hc, E. }
  destruct (run_split _ _ _ _ _ _ _ E) as (u1 & u2 & u3 & E1 & E2 & E3 & E4). rewrite E1. exists u1, u2.
  split; [reflexivity|]. split; [reflexivity|].
  pose proof (out_part12 (mkconf w a) fuel (until_nul t) s1) as O. rewrite E1 in O.
  pose proof (bal_part12 (mkconf w a) fuel (until_nul t) s1) as B. rewrite E1 in B.
  split; [exact O|]. split; [intros S0; apply B; [apply Z.le_refl|exact S0|reflexivity]|]. split; [exact E2|].
  unfold part4 in E3. change (c_normal (mkconf w a)) with (a_normal a) in E3. rewrite Hn in E3. cbn [whenM] in E3.
  destruct (phase_split _ _ _ _ _ E3) as (s4 & W & O4 & _). unfold export in W. rewrite !bind_get in W.
  apply write_file_out in W. rewrite E4, O4, W. reflexivity.
Qed.

(** Two completed runs of the same program with the same options, the second also with -L: if
    the passes leave nothing open and no '#' in a define, the output files are the same, and
    the only other file is the label file of the second run. *)
Theorem c78_label_file_partial fuel w argv1 argv2 a c1 c2 f1 f2 s1 s2 :
  read_args w args0 argv1 = AGo (labelled false a) -> read_args w args0 argv2 = AGo (labelled true a) -> a_normal a = true ->
  main fuel w argv1 = Done c1 f1 (Some s1) -> main fuel w argv2 = Done c2 f2 (Some s2) -> c1 <> 3 -> c2 <> 3 ->
  (forall s, passed fuel w (labelled false a) = Some s -> settled s) ->
  exists output code lab, f1 = [(output, code)] /\ f2 = [(change_extension output (zs "lab"), lab); (output, code)].
Proof.
  intros A1 A2 Hn H1 H2 N1 N2 Hs.
  destruct (main_done _ _ _ _ _ _ _ A1 Hn H1 N1) as (i1 & u1 & v1 & I1 & P1 & O1 & X1 & Q1 & F1).
  destruct (main_done _ _ _ _ _ _ _ A2 Hn H2 N2) as (i2 & u2 & v2 & I2 & P2 & O2 & X2 & Q2 & F2).
  rewrite (passed_labelled fuel w a Hn) in P2. rewrite P1 in P2. injection P2 as <-. cbn [labelled a_input a_output] in *.
  assert (i2 = i1) as -> by congruence. set (output := match a_output a with Some o => o | None => _ end) in *.
  specialize (Hs _ P1). pose proof (X1 (st_sess _ Hs)) as Xe.
  change (Ok tt u1 = Ok tt v1) in Q1. injection Q1 as <-. rewrite O1 in F1. cbn [rev app] in F1.
  destruct (part3_listed _ _ _ _ _ Q2) as (u3 & L & M & P). destruct (listed_same _ _ _ _ Hs Xe L) as (M' & P').
  rewrite M, P, M', P' in F2.
  assert (Fl : exists lab, s_outfiles v2 = [(change_extension output (zs "lab"), lab)]).
  { unfold part3 in Q2. change (c_symtable (mkconf w (labelled true a))) with true in Q2. cbn [whenM] in Q2.
    destruct (phase_split _ _ _ _ _ Q2) as (u4 & W & E4 & _). rewrite E4. unfold write_labels in W. rewrite start_eq, !bind_get in W.
    apply bind_inv_ok in W as (l & u5 & E5 & W). apply bind_inv_ok in W as ([] & u6 & E6 & W). rewrite bind_get in W. injection W as <-.
    cbn [s_outfiles set_outfiles]. eexists. f_equal. 
    assert (G : s_outfiles u6 = s_outfiles u5).
    { revert E6. unfold end_session, bind, get, upd, whenM, ret.
      repeat match goal with |- context [if ?b then _ else _] => destruct b end; intros E6; try discriminate E6; injection E6 as <-; reflexivity. }
    rewrite G. pose proof (keeps_lab (mkconf w (labelled true a)) fuel same_out (s_defines u1) (lab_labels (s_labels u1)) same_out_rel) as K.
    specialize (K (set_sess (s_sess u1 + 1 + 1) (set_sess (s_sess u1 + 1) u1))). simpl in E5. rewrite E5 in K.
    unfold same_out in K. rewrite K. exact O1. }
  destruct Fl as (lab & Fl). rewrite Fl in F2. exists output, (out_of (mkconf w a) (s_mem u1) (s_pos u1) output), lab.
  split; [exact F1|exact F2].
Qed.
Print Assumptions c78_label_file_partial.

(** The label file may hold a define whose value had to be computed. *)
Definition settledb (s : st) : bool :=
  (s_sess s =? 0) && cleanb (s_file s) && tokb (s_defines s) && forallb (fun x => tokb (snd x)) (s_args s).
Lemma settledb_ok s : settledb s = true -> settled s.
Proof.
  intros H. unfold settledb in H. repeat (apply andb_true_iff in H; destruct H as (H & ?)).
  split; auto using cleanb_ok, tokb_ok; [lia|]. apply Forall_forall. intros x Hx. rewrite forallb_forall in H0. apply tokb_ok, (H0 x Hx).
Qed.
Definition case78 : world := two_files ["#define two one+1"; "one .equ 1"; "start: ld a,two"; "#include ""/w/f.inc"""; " jp start"]%string [" .db 1,2"]%string.
Definition args78 (l : bool) : list text := (if l then [zs "-L"] else []) ++ [zs "a.asm"; zs "a.bin"].
Example c78_case :
  match read_args case78 args0 (args78 true) with
  | AGo a =>
    read_args case78 args0 (args78 false) = AGo (labelled false a) /\ a = labelled true a /\ a_normal a = true /\
    match passed 60 case78 (labelled false a) with Some s => settledb s = true | None => False end
  | _ => False
  end /\
  match main 60 case78 (args78 false), main 60 case78 (args78 true) with
  | Done c1 f1 (Some _), Done c2 f2 (Some _) => c1 = 0 /\ c2 = 0 /\ f1 = [(zs "a.bin", [62; 2; 1; 2; 195; 0; 0])] /\ length f2 = 2%nat
  | _, _ => False
  end.
Proof. vm_compute. split; [split; [reflexivity|]; split; [reflexivity|]; split; reflexivity|]. split; [reflexivity|]. split; [reflexivity|]. split; reflexivity. Qed.

(** A macro that includes source emits code whenever it is evaluated, so also when the label
    file is made. *)
Theorem c78_refuted : exists w,
  output_of (main 60 w (args78 false)) = Some (0, Some [5]) /\ output_of (main 60 w (args78 true)) = Some (0, Some [5; 1; 2]).
Proof.
  exists (two_files ["#macro x"; "#include ""/w/f.inc"""; "7"; "#endmacro"; "#define y x"; " .db 5"]%string [" .db 1,2"]%string).
  vm_compute. split; reflexivity.
Qed.
Print Assumptions c78_refuted.
