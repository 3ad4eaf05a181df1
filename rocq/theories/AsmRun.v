(** The whole run: both passes and the output file, for a program of the reference assembler. *)
From Verif Require Import Base BaseProofs State MonadProofs UtilsModel ErrorsModel StorageModel ParserModel PassTwoModel
  PassOneModel IhexModel ExportModel Knot OpcodeTables MainModel UtilsSpec UtilsProofs StorageSpec StorageProofs PassTwoProofs
  ParserSpec ExportSpec ExportProofs ExportProps InstrSpec MatchSpec AsmSpec AsmExpand AsmProofs AsmData AsmInstr AsmLine.
#[local] Existing Instance no_params.
#[local] Existing Instance no_calls.
#[local] Existing Instance no_frame.
#[local] Existing Instance no_consts.

(** Output names that ask for a format without requirements of its own on the program. *)
Definition plain_name (name : text) (x : exporter) (stem : text) : Prop :=
  (x = ExBinary /\ name <> [] /\ ~ In 46 (tl name)) \/
  (exists ext, name = stem ++ 46 :: ext /\ stem <> [] /\ ~ In 46 ext /\ exporter_of ext formats = Some x /\ (x = ExBinary \/ x = ExRom \/ x = ExHex)).
Definition exported_bytes (x : exporter) (b : list Z) : list Z :=
  match x with ExRom => makerom b | ExHex => intelhex b | _ => b end.

Lemma write_plain C name x stem b s : plain_name name x stem -> zlen b <= 8000000 ->
  write_file C b (zlen b) name s =
  Ok tt (set_file [] (set_outfiles ((name, exported_bytes x b) :: s_outfiles s) (set_line (-1) (set_file (zs "exporter") s)))).
Proof.
  intros P Rm. unfold write_file. pose proof (zlen_nonneg b).
  assert (E3 : image_of b (zlen b) = b).
  { unfold image_of. replace (Z.to_nat (zlen b) - length b)%nat with O by (unfold zlen; lia). cbn. rewrite app_nil_r. unfold zlen. rewrite Nat2Z.id. apply firstn_all. }
  assert (E4 : OUTPUT_BUF_SIZE <? zlen b = false) by (unfold OUTPUT_BUF_SIZE; lia).
  destruct P as [(-> & Nn & Nd)|(ext & -> & Sn & Ne & X & Xs)].
  - destruct name as [|c name]; [congruence|]. unfold file_ext. cbn [tl] in *. rewrite after_last_none by exact Nd. rewrite E3, E4, !bind_upd, bind_ret. reflexivity.
  - assert (E1 : file_ext (stem ++ 46 :: ext) = Some ext).
    { unfold file_ext. destruct stem as [|c stem]; [congruence|]. cbn [app tl]. now apply after_last_spec. }
    rewrite E1, E3, E4, find_ext_spec, X, !bind_upd. replace (zlen b <? 0) with false by lia.
    destruct Xs as [->|[->| ->]]; cbn [option_map]; rewrite bind_ret; reflexivity.
Qed.

Lemma quiet_errs l : Forall (err_ok 1) l ->
  replay_print true l = [] /\ unlead 1 l = [] /\ existsb (fun e => is_fatal (e_code e)) (lead 1 l) = false.
Proof.
  intros F. split; [|split].
  - unfold replay_print. apply Forall_rev in F. induction F as [|e l' (E1 & E2) F IH]; [reflexivity|]. cbn [filter]. rewrite E1. cbn. rewrite Bool.andb_false_r. exact IH.
  - induction F as [|e l' (E1 & E2) F IH]; [reflexivity|]. cbn. replace (e_sess e =? 1) with true by lia. exact IH.
  - induction F as [|e l' (E1 & E2) F IH]; [reflexivity|]. cbn. replace (e_sess e =? 1) with true by lia. cbn [existsb]. rewrite E1. exact IH.
Qed.

Lemma until_nul_id t : Forall (fun c => c <> 0) t -> until_nul t = t.
Proof. induction 1 as [|c t H F IH]; [reflexivity|]. cbn. replace (c =? 0) with false by lia. now rewrite IH. Qed.

(** The text of a program is not taken for one with a byte order mark. *)
Lemma first_byte wraps ez80 fold tk ops now here l p : sections_ok wraps ez80 fold tk ops now here (sections (l :: p)) ->
  exists c u, program_text (l :: p) = c :: u /\ c <> 239.
Proof.
  intros O. cbn [program_text flat_map] in *. unfold line_text. rewrite <- !app_assoc.
  change (sections (l :: p)) with ((l_first l :: l_more l) ++ sections p) in O. cbn [app AsmSpec.sections_ok] in O. destruct O as (((Bi & In0) & Lo & So) & _).
  assert (T : forall more, exists c u, section_text (l_first l) ++ flat_map (fun x => 92 :: section_text x) (l_more l) ++
     match l_comment l with Some t => 59 :: t | None => [] end ++ (if l_cr l then [13; 10] else [10]) ++ more = c :: u /\ c <> 239).
  { intros more. unfold section_text at 1. destruct (x_label (l_first l)) as [n|].
    - destruct Lo as (_ & (c & u & -> & Ns) & _). cbn [app]. eexists _, _. split; [reflexivity|]. unfold name_start in Ns. lia.
    - cbn [app]. destruct (x_indent (l_first l)) as [|y ind].
      + specialize (In0 eq_refl). destruct (x_stmt (l_first l)); cbn [stmt_text app]; try contradiction; try (eexists _, _; split; [reflexivity|lia]).
        2:{ exfalso. destruct (with_label _ _ _ _ _); exact So. }
        destruct (l_more l); cbn [flat_map app]; [|eexists _, _; split; [reflexivity|lia]].
        destruct (l_comment l); cbn [app]; [eexists _, _; split; [reflexivity|lia]|]. destruct (l_cr l); cbn [app]; eexists _, _; (split; [reflexivity|lia]).
      + inversion Bi; subst. cbn [app]. eexists _, _. split; [reflexivity|]. unfold blank in *. lia. }
  exact (T (flat_map line_text p)).
Qed.
Lemma contents_id c u : c <> 239 -> get_file_contents (c :: u) = Some (c :: u).
Proof. intros H. unfold get_file_contents. replace (c =? 239) with false by lia. reflexivity. Qed.

Lemma count_lines p : (length p <= length (program_text p))%nat /\ Forall (fun l => (length (l_more l) <= length (program_text p))%nat) p.
Proof.
  induction p as [|l p (IH1 & IH2)]; [split; [cbn; lia|constructor]|]. cbn [program_text flat_map]. fold (program_text p). rewrite app_length.
  assert (E : (S (length (l_more l)) <= length (line_text l))%nat).
  { unfold line_text. rewrite !app_length.
    assert (L : (length (l_more l) <= length (flat_map (fun x => 92%Z :: section_text x) (l_more l)))%nat).
    { induction (l_more l) as [|x xs IH]; [cbn; lia|]. cbn [flat_map length]. rewrite app_length. cbn [length]. lia. }
    destruct (l_cr l); cbn [length]; lia. }
  split; [cbn; lia|]. constructor; [lia|]. eapply Forall_impl; [|exact IH2]. cbn. intros. lia.
Qed.

Section Run.
Variable C : cfg.
Hypothesis normal : c_normal C = true.
Hypothesis no_counter : c_counter C = false.
Hypothesis no_symtable : c_symtable C = false.
Notation ops := (if c_ez80 C then opcode_list_ez80 else opcode_list).

(** The run after the first pass. *)
Definition run_tail (R : fns) (output : text) : M Z :=
  replay_session C 1 true ;;;
  end_session 1 ;;;
  upd (set_incdirs []) ;;;
  whenM (c_symtable C || c_normal C || c_list C)
    (n <- start_session ;;
     run_second_pass C R ;;;
     replay_session C n false ;;;
     end_session n ;;;
     whenM (c_symtable C)
       (n <- start_session ;;
        write_labels R (change_extension output (zs "lab")) ;;;
        replay_session C n true ;;;
        end_session n) ;;;
     whenM (c_normal C)
       (n <- start_session ;;
        mem <- get s_mem ;; pos <- get s_pos ;;
        write_file C mem pos output ;;;
        replay_session C n true ;;;
        end_session n) ;;;
     upd (set_infiles [])) ;;;
  get s_exitc.
(** Without the constants. *)
Lemma core_plain (P : Params) (K : Consts) D k t s : @core P no_frame K C D ops k t s -> @core no_params no_frame no_consts C D ops k t s.
Proof.
  intros H. destruct H. constructor; try assumption.
  - intros n. reflexivity.
  - intros n v E. discriminate E.
  - intros n E. now elim E.
  - intros w Hw. reflexivity.
Qed.
Lemma run_begin D dirs input src output n (tx : text) :
  Forall (fun c => c <> 0) tx -> (exists c u, tx = c :: u /\ c <> 239) -> (1 <= n)%nat ->
  match src with Some t => t = tx | None => c_files C input = Some tx end ->
  exists s3, @good (eq 0) (fresh_dirs (c_cwd C :: dirs)) _ _ _ C D ops 1 [] 0 [] [] s3 /\
    run_assembly C (knot C n) src output (init_state (c_ez80 C) input dirs D) = (pass_loop (knot C n) n tx ;;; run_tail (knot C n) output) s3.
Proof.
  intros P0 (c & u & Tx & Nc) Fu Src.
  unfold run_assembly. rewrite bind_upd, bind_get.
  set (s0 := reset_run _).
  assert (E0 : match src with Some t => Some t | None => match c_files C (s_file s0) with Some b => get_file_contents b | None => None end end = Some (tx)).
  { destruct src as [t|]; [now rewrite Src|]. change (s_file s0) with input. rewrite Src, Tx. now apply contents_id. }
  rewrite E0. clear E0. rewrite bind_get, bind_upd. rewrite until_nul_id by exact P0.
  set (s1 := set_incdirs _ s0). assert (E1 : start_session s1 = Ok 1 (set_sess 1 s1)) by reflexivity.
  rewrite (bind_ok _ _ _ _ _ E1). cbv beta. set (s2 := set_sess 1 s1).
  set (s3 := if c_ez80 C then set_adl true (set_line 1 s2) else set_line 1 s2).
  assert (Ef : run_first_pass C (knot C n) tx s2 = pass_loop (knot C n) n tx s3).
  { unfold run_first_pass. rewrite bind_upd. unfold s3. destruct n; [lia|]. destruct (c_ez80 C); reflexivity. }
  exists s3. split.
  - assert (Ad : s_adl s3 = c_ez80 C) by (unfold s3; destruct (c_ez80 C); reflexivity).
    assert (Op : s_opcodes s3 = ops) by (unfold s3; destruct (c_ez80 C); reflexivity).
    assert (K : core C D ops 1 [] s3).
    { constructor; try exact Ad; try exact Op; unfold s3; destruct (c_ez80 C); first [reflexivity|intros w; reflexivity|intros n0 v0 E0; discriminate E0|constructor]. }
    split; [exact K|]. split; [constructor; unfold s3; destruct (c_ez80 C); reflexivity|]. split; [|lia]. split; [intros w v H; discriminate|reflexivity].
  - unfold bind at 1. rewrite Ef. reflexivity.
Qed.

(** The rest of the run, once the first pass has gone through the source text; it may have added to the defines. *)
Lemma run_gen D0 dirs input src output n (tx : text) T b x stem :
  Forall (fun c => c <> 0) tx -> (exists c u, tx = c :: u /\ c <> 239) -> zlen b <= 8000000 -> (22 <= n)%nat -> plain_name output x stem ->
  match src with Some t => t = tx | None => c_files C input = Some tx end ->
  (forall s3, @good (eq 0) (fresh_dirs (c_cwd C :: dirs)) _ _ _ C D0 ops 1 [] 0 [] [] s3 -> exists D (Pa : Params) (Ks : Consts) lv h s4 b0 q, pass_loop (knot C n) n tx s3 = Ok tt s4 /\ @good lv (fresh_dirs (c_cwd C :: dirs)) Pa _ Ks C D ops 1 T h b0 q s4 /\ fills C D ops n T 0 q b0 b) ->
  exists s, run_assembly C (knot C n) src output (init_state (c_ez80 C) input dirs D0) = Ok 0 s /\
    s_outfiles s = [(output, exported_bytes x b)] /\ s_printed s = [] /\
    forall n, option_map l_value (tfind (key C n) (s_labels s)) = lookup (key C) T n.
Proof.
  intros P0 Fb Rm Fu Pl2 Src Pass.
  destruct (run_begin D0 dirs input src output n tx P0 Fb ltac:(lia) Src) as (s3 & G & Er). rewrite Er. clear Er.
  destruct (Pass s3 G) as (D & Pa & Ks & lv & h & s4 & b0 & q & P4 & G4 & F4).
  rewrite (bind_ok _ _ _ _ _ P4). unfold run_tail.
  destruct G4 as (K4 & A4 & _). apply core_plain in K4.
  destruct (quiet_errs _ (errs_all _ _ (k_errs _ _ _ _ _ _ K4))) as (Q1 & Q2 & Q3).
  assert (E5 : replay_session C 1 true s4 = Ok tt (set_printed [] s4)).
  { unfold replay_session. rewrite bind_get. cbn [Z.eqb Pos.eqb]. rewrite bind_get. rewrite no_counter, Q1, (k_printed _ _ _ _ _ _ K4). reflexivity. }
  rewrite (bind_ok _ _ _ _ _ E5). cbv beta. set (s5 := set_printed [] s4).
  assert (E6 : end_session 1 s5 = Ok tt (set_sess 0 (set_errs [] s5))).
  { unfold end_session. rewrite !bind_get, !bind_upd. change (s_errs s5) with (s_errs s4). change (s_sess s5) with (s_sess s4).
    rewrite Q2, Q3, (k_sess _ _ _ _ _ _ K4). reflexivity. }
  rewrite (bind_ok _ _ _ _ _ E6). cbv beta. rewrite bind_upd. set (s6 := set_incdirs [] _).
  rewrite no_symtable, normal. cbn [orb whenM].
  assert (E7 : start_session s6 = Ok 1 (set_sess 1 s6)) by reflexivity.
  set (s7 := set_sess 1 s6) in *.
  assert (K7 : ready C D ops T s7). { split; [|reflexivity]. destruct K4; constructor; try assumption; try reflexivity. }
  destruct F4 as (Lb & F4). destruct (F4 [] [] s7) as (s8 & P8 & K8 & M8); [reflexivity|exact K7| |].
  { rewrite app_nil_r. exact (a_mem _ _ _ _ A4). }
  rewrite app_nil_r in M8. cbn [app] in M8.
  assert (Lz : zlen b0 = zlen b) by (unfold zlen; now rewrite Lb).
  assert (E8 : run_second_pass C (knot C n) s7 = Ok tt (set_file (s_file s4) (set_outputs [] (set_pos (zlen b) (set_exprs [] s8))))).
  { unfold run_second_pass. rewrite !bind_get. change (s_exprs s7) with (s_exprs s4). rewrite (a_q _ _ _ _ A4). rewrite (bind_ok _ _ _ _ _ P8). rewrite !bind_upd.
    change (s_pos s7) with (s_pos s4). rewrite (a_pos _ _ _ _ A4), Lz. rewrite bind_get. cbn [s_outputs set_pos set_exprs]. rewrite (k_outputs _ _ _ _ _ _ (proj1 K8)). reflexivity. }
  set (s9 := set_file _ _) in E8.
  assert (K9 : ready C D ops T s9). { destruct K8 as (K8 & K8e). split; [|exact K8e]. destruct K8; constructor; try assumption; reflexivity. }
  assert (E9 : replay_session C 1 false s9 = Ok tt (set_printed [] s9)).
  { unfold replay_session. rewrite bind_get. cbn [Z.eqb Pos.eqb]. rewrite bind_get. rewrite no_counter, (proj2 K9), (k_printed _ _ _ _ _ _ (proj1 K9)). reflexivity. }
  assert (E10 : end_session 1 (set_printed [] s9) = Ok tt (set_sess 0 (set_errs [] (set_printed [] s9)))).
  { unfold end_session. rewrite !bind_get, !bind_upd. cbn [s_errs s_sess set_printed set_errs]. rewrite (proj2 K9), (k_sess _ _ _ _ _ _ (proj1 K9)). reflexivity. }
  set (s10 := set_sess 0 _) in E10.
  assert (E11 : start_session s10 = Ok 1 (set_sess 1 s10)) by reflexivity. set (s11 := set_sess 1 s10) in *.
  assert (Mem : s_mem s11 = b) by exact M8. assert (Pos : s_pos s11 = zlen b) by reflexivity.
  pose proof (write_plain C output x stem b s11 Pl2 Rm) as E12. set (s12 := set_file [] _) in E12.
  assert (Er12 : s_errs s12 = []) by reflexivity. assert (Pr12 : s_printed s12 = []) by reflexivity. assert (Se12 : s_sess s12 = 1) by reflexivity.
  assert (E13 : replay_session C 1 true s12 = Ok tt (set_printed [] s12)).
  { unfold replay_session. rewrite bind_get. cbn [Z.eqb Pos.eqb]. rewrite bind_get. rewrite no_counter, Er12, Pr12. reflexivity. }
  assert (E14 : end_session 1 (set_printed [] s12) = Ok tt (set_sess 0 (set_errs [] (set_printed [] s12)))) by reflexivity.
  exists (set_infiles [] (set_sess 0 (set_errs [] (set_printed [] s12)))).
  split; [|split; [|split; [reflexivity|exact (k_labels _ _ _ _ _ _ (proj1 K8))]]].
  - rewrite bind_assoc. rewrite (bind_ok _ _ _ _ _ E7). cbv beta.
    rewrite bind_assoc. rewrite (bind_ok _ _ _ _ _ E8). cbv beta.
    rewrite bind_assoc. rewrite (bind_ok _ _ _ _ _ E9). cbv beta.
    rewrite bind_assoc. rewrite (bind_ok _ _ _ _ _ E10). cbv beta.
    rewrite bind_assoc, bind_ret. rewrite !bind_assoc. rewrite (bind_ok _ _ _ _ _ E11). cbv beta.
    rewrite bind_assoc, bind_get, bind_assoc, bind_get. rewrite Mem, Pos. rewrite bind_assoc. rewrite (bind_ok _ _ _ _ _ E12). cbv beta.
    rewrite bind_assoc. rewrite (bind_ok _ _ _ _ _ E13). cbv beta. rewrite (bind_ok _ _ _ _ _ E14). cbv beta. rewrite bind_upd.
    unfold get. cbn [s_exitc set_infiles set_sess set_errs set_printed].
    change (Ok (s_exitc s8) (set_infiles [] (set_sess 0 (set_errs [] (set_printed [] s12)))) = Ok 0 (set_infiles [] (set_sess 0 (set_errs [] (set_printed [] s12))))).
    now rewrite (k_exitc _ _ _ _ _ _ (proj1 K8)).
  - change ((output, exported_bytes x b) :: s_outfiles s8 = [(output, exported_bytes x b)]). now rewrite (k_outfiles _ _ _ _ _ _ (proj1 K8)).
Qed.
Lemma run_ok D dirs input src output n p b x stem :
  (forall w, ~ name_start (hd0 w) -> tfind (key C w) D = None) ->
  program_ok (c_wrap C) (c_ez80 C) (key C) (taken C D) ops p ->
  assemble (c_wrap C) (c_ez80 C) (key C) (taken C D) p = Some b -> zlen b <= 8000000 ->
  (length (program_text p) + 22 <= n)%nat -> plain_name output x stem ->
  match src with Some t => t = program_text p | None => c_files C input = Some (program_text p) end ->
  exists T s, symbols (c_wrap C) (c_ez80 C) (key C) (taken C D) [] 0 (sections p) = Some T /\
    run_assembly C (knot C n) src output (init_state (c_ez80 C) input dirs D) = Ok 0 s /\
    s_outfiles s = [(output, exported_bytes x b)] /\ s_printed s = [] /\
    forall n, option_map l_value (tfind (key C n) (s_labels s)) = lookup (key C) T n.
Proof.
  intros D_names (Pn & P0 & Pl & Po) As Rm Fu Pl2 Src.
  unfold assemble in As. destruct (symbols _ _ _ _ _ _ _) as [T|] eqn:Sy; [|discriminate].
  exists T. assert (Known : ops = opcode_list \/ ops = opcode_list_ez80) by (destruct (c_ez80 C); auto).
  destruct p as [|l p]; [congruence|]. set (pp := l :: p) in *.
  destruct (first_byte _ _ _ _ _ _ _ _ _ Po) as (c & u & Tx & Nc). fold pp in Tx.
  destruct n as [|[|m]]; try lia. assert (Hm : (20 <= m)%nat) by lia. destruct (count_lines pp) as (L1 & L2).
  destruct (run_gen D dirs input src output (S (S m)) (program_text pp) T b x stem) as (s & E); [exact P0|eauto|exact Rm|lia|exact Pl2|exact Src| |].
  - intros s3 G.
    destruct (@pass_run (eq 0) (fresh_dirs (c_cwd C :: dirs)) _ _ _ no_calls C D ops normal no_counter D_names (S (S m)) ltac:(lia) Known 0 (no_calls_lawful C) (no_calls_run C D ops (S (S m))) m 1 T Hm ltac:(lia) ltac:(lia) pp (S (S m)) [] 0 s3 [] [] b) as (h & s4 & b0 & q & P4 & G4 & F4); auto; try lia.
    { rewrite Forall_forall in *. intros y Hy. split; [now apply Pl|]. specialize (L2 y Hy). cbn beta in L2. lia. }
    exists D, no_params, no_consts, (eq 0), h, s4, b0, q. auto.
  - exists s. split; [reflexivity|exact E].
Qed.
End Run.
