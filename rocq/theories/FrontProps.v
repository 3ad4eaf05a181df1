(** Definitions in files that are included, and files that guard themselves (C68). *)
From Verif Require Import Base BaseProofs State MonadProofs StorageModel ErrorsModel ParserModel PreopModel PassOneModel OpcodeTables MainModel FuelProofs UtilsModel UtilsSpec UtilsProofs
  StorageSpec StorageProofs ParserSpec ParserProofs Knot ExportModel ExportSpec InstrSpec MatchSpec MatchProofs MatchProps AsmSpec AsmExpand AsmProofs AsmLine AsmRun AsmProps
  CondSpec CondSkip CondExt CondRun CondProps MacroSpec MacroRun MacroDefs FrontSpec FrontRun MacroProps FileProps ConstProps.
#[local] Existing Instance no_params.
#[local] Existing Instance no_frame.
#[local] Existing Instance no_consts.

(** One part of what stands in front, and then another. *)
Fixpoint then_ (a b : front) : front :=
  match a with
  | FNil => b
  | FItem i more => FItem i (then_ more b)
  | FNote t c cr more => FNote t c cr (then_ more b)
  | FFile y inside more => FFile y inside (then_ more b)
  | FWhen h yes e more => FWhen h yes e (then_ more b)
  | FElse h out m no e more => FElse h out m no e (then_ more b)
  | FLeft h out e more => FLeft h out e (then_ more b)
  end.
Lemma then_text a b : front_text (then_ a b) = front_text a ++ front_text b.
Proof. induction a; cbn [then_ front_text]; rewrite ?IHa, ?IHa1, ?IHa2; now rewrite <- ?app_assoc. Qed.
Lemma then_size a b : (front_size (then_ a b) = front_size a + front_size b)%nat.
Proof. induction a; cbn [then_ front_size]; rewrite ?IHa, ?IHa1, ?IHa2; lia. Qed.
Lemma then_ok fold file search a b : front_ok fold file search (then_ a b) <-> front_ok fold file search a /\ front_ok fold file search b.
Proof. induction a; cbn [then_ front_ok]; rewrite ?IHa, ?IHa2; tauto. Qed.
Lemma then_counted fold a b : forall d, counted fold d (then_ a b) = joined fold d (counted fold d a) (fun e => counted fold e b).
Proof.
  assert (N : forall d, counted fold d b = joined fold d (Some []) (fun e => counted fold e b)).
  { intros d. unfold joined. rewrite (counted_same fold b (fun n => d n || header_name fold [] n) d); [|intros n; apply orb_false_r]. now destruct (counted fold d b). }
  assert (A : forall d x l, (forall d, counted fold d (then_ l b) = joined fold d (counted fold d l) (fun e => counted fold e b)) ->
    joined fold d x (fun e => counted fold e (then_ l b)) = joined fold d (joined fold d x (fun e => counted fold e l)) (fun e => counted fold e b)).
  { intros d [h|] l H; [|reflexivity]. unfold joined at 1 3. rewrite H. set (d1 := fun n => d n || header_name fold h n). destruct (counted fold d1 l) as [k|]; [|reflexivity]. cbn [joined].
    rewrite (counted_same fold b (fun n => d1 n || header_name fold k n) (fun n => d n || header_name fold (h ++ k) n)).
    - destruct (counted fold _ b); [|reflexivity]. now rewrite app_assoc.
    - intros n. unfold d1, header_name. rewrite existsb_app. now rewrite orb_assoc. }
  induction a as [|i l IH|t c cr l IH|y l1 IH1 l IH|h l1 IH1 a l IH|h o m l1 IH1 e l IH|h o e l IH]; intros d; cbn [then_ counted]; auto.
  rewrite IH. unfold only. destruct (asks d (h_test h)) as [c|]; [|reflexivity]. destruct (Bool.eqb c false); reflexivity.
Qed.

(** * C68 *)
(** A file whose lines all stand between #ifndef and #endif may be included again, anywhere in front
    of the program after the name has been defined: nothing changes. *)
Lemma again w search defs ez80 case os l1 l2 hs ks srcs depth b p r bts y h sk e n hs1 :
  front_program w search defs ez80 case os (then_ l1 l2) hs ks srcs depth b p r bts ->
  counted (fold_name case) (defined_name case defs) l1 = Some hs1 -> known_names case defs hs1 n = true ->
  h_test h = Undefined n -> front_ok (fold_name case) (w_files w) search (FFile y (FLeft h sk e FNil) FNil) -> Forall (fun c => c <> 0) (fline_text y) -> hd0 (fline_text y) <> 239 ->
  front_program w search defs ez80 case os (then_ l1 (FFile y (FLeft h sk e FNil) l2)) hs ks srcs depth b p r bts.
Proof.
  intros [(Z0 & Ne & Nb) Fo Ct Mo St Vk Sr Bo Ch So As] C1 Kn Et Oy Zy Hy. rewrite then_text in *.
  assert (Ly : fline_text y <> []) by (unfold fline_text; destruct (f_indent y); discriminate).
  constructor; auto.
  - rewrite then_text. cbn [front_text]. rewrite <- !app_assoc in *. apply Forall_app in Z0 as (Z1 & Z2). split; [|split].
    + apply Forall_app. split; [exact Z1|]. apply Forall_app. split; [exact Zy|exact Z2].
    + destruct (front_text l1); [|discriminate]. cbn [app]. destruct (fline_text y); [congruence|discriminate].
    + destruct (front_text l1) as [|c u]; [|exact Nb]. cbn [app]. destruct (fline_text y); [congruence|exact Hy].
  - apply then_ok in Fo as (F1 & F2). apply then_ok. split; [exact F1|]. cbn [front_ok] in *. tauto.
  - rewrite <- Ct, !then_counted, C1. cbn [joined counted]. rewrite Et. cbn [asks]. unfold known_names in Kn. rewrite Kn. cbn [negb only Bool.eqb joined].
    set (d1 := fun n => defined_name case defs n || header_name (fold_name case) hs1 n).
    rewrite (counted_same _ l2 (fun n => d1 n || header_name (fold_name case) [] n) d1); [|intros m; apply orb_false_r]. destruct (counted _ d1 l2); reflexivity.
Qed.
Theorem c68_again : forall w dirs defs ez80 case fuel input input' output x stem os l1 l2 hs ks srcs depth b p r bts y h sk e n hs1,
  Forall dir_ok dirs -> Forall option_ok defs -> hd0 input <> 45 -> hd0 input' <> 45 -> hd0 output <> 45 -> home (w_cwd w) input' = home (w_cwd w) input ->
  w_files w input = Some (front_text l1 ++ front_text l2 ++ blocks_text b) -> w_files w input' = Some (front_text l1 ++ fline_text y ++ front_text l2 ++ blocks_text b) -> plain_name output x stem ->
  front_program w (home (w_cwd w) input :: dirs) defs ez80 case os (then_ l1 l2) hs ks srcs depth b p r bts ->
  counted (fold_name case) (defined_name case defs) l1 = Some hs1 -> known_names case defs hs1 n = true ->
  h_test h = Undefined n -> front_ok (fold_name case) (w_files w) (home (w_cwd w) input :: dirs) (FFile y (FLeft h sk e FNil) FNil) -> Forall (fun c => c <> 0) (fline_text y) -> hd0 (fline_text y) <> 239 ->
  zlen bts <= 8000000 -> (front_size l1 + front_size (FFile y (FLeft h sk e FNil) FNil) + front_size l2 + length (blocks_text b) + sources_size srcs + 3 * depth + 50 <= fuel)%nat ->
  exists s s', main fuel w (command_in dirs defs ez80 case input output) = Done 0 [(output, exported_bytes x bts)] (Some s) /\ s_printed s = [] /\
    main fuel w (command_in dirs defs ez80 case input' output) = Done 0 [(output, exported_bytes x bts)] (Some s') /\ s_printed s' = [] /\
    forall n, option_map l_value (tfind (fold_name case n) (s_labels s')) = option_map l_value (tfind (fold_name case n) (s_labels s)).
Proof.
  intros w dirs defs ez80 case fuel input input' output x stem os l1 l2 hs ks srcs depth b p r bts y h sk e n hs1 Hd Od Hi Hi' Ho Hh Hf Hf' Pl Fp C1 Kn Et Oy Zy Hy Rm Fu.
  pose proof (again _ _ _ _ _ _ _ _ _ _ _ _ _ _ _ _ _ _ _ _ _ _ Fp C1 Kn Et Oy Zy Hy) as Fp'. rewrite <- Hh in Fp'. cbn [front_size] in Fu.
  destruct (c68_front w dirs defs ez80 case fuel input output x stem os (then_ l1 l2) hs ks srcs depth b p r bts) as (s & E & Pr & Lb); auto; [now rewrite then_text, <- app_assoc|rewrite then_size; lia|].
  destruct (c68_front w dirs defs ez80 case fuel input' output x stem os (then_ l1 (FFile y (FLeft h sk e FNil) l2)) hs ks srcs depth b p r bts) as (s' & E' & Pr' & Lb'); auto.
  { rewrite then_text. cbn [front_text]. now rewrite <- !app_assoc. } { rewrite then_size. cbn [front_size]. lia. }
  exists s, s'. split; [exact E|]. split; [exact Pr|]. split; [exact E'|]. split; [exact Pr'|]. intros m. now rewrite Lb, Lb'.
Qed.
Print Assumptions c68_front.
Print Assumptions c68_again.

(** ** A header that guards itself *)
Definition ex_next : item := ex_const (zs "next") (Some (ex_at sp ex_sum (zs "SIZE+1") [])) (Some (zs " three")).
Definition ex_flag : item := ex_const (zs "flag") None None.
Definition ex_asks : head := mkhead [] (zs "ifndef") sp (Undefined (zs "flag")) no_comment.
Definition ex_ends : mark := mkmark [] (zs "endif") no_comment.
Definition ex_include : fline := mkfline [] (mkpaste (zs "include") sp (zs "defs.inc") []) None false.
Definition ex_skipped : blocks := Other (zs "#define next SIZE+1 ; three") false (Other (zs "#define flag") false Nil).
Definition ex_first : front := FFile ex_include (FWhen ex_asks (FItem ex_next (FItem ex_flag FNil)) (End ex_ends) FNil) FNil.
Definition ex_rest : front := FNote sp (Some (zs " the program")) false FNil.
Definition ex_defs_inc : text := zs "#ifndef flag" ++ [10] ++ zs "#define next SIZE+1 ; three" ++ [10] ++ zs "#define flag" ++ [10] ++ zs "#endif" ++ [10].
Definition ex_once : text := zs "#include " ++ [34] ++ zs "defs.inc" ++ [34; 10] ++ zs " ; the program" ++ [10] ++ blocks_text ex_cblocks.
Definition ex_twice : text := zs "#include " ++ [34] ++ zs "defs.inc" ++ [34; 10] ++ zs "#include " ++ [34] ++ zs "defs.inc" ++ [34; 10] ++ zs " ; the program" ++ [10] ++ blocks_text ex_cblocks.
Lemma ex_include_ok f search inside : located f search (zs "defs.inc") = Some (zs "/p/defs.inc") -> f (zs "/p/defs.inc") = Some ex_defs_inc -> front_text inside = ex_defs_inc -> file_ok f search ex_include inside.
Proof.
  intros L F E. split; [constructor|]. split; [exact I|]. split; [reflexivity|]. split; [exact ex_gap|]. split; [now apply ex_fname|]. split; [constructor|]. split; [vm_compute; discriminate|].
  exists (zs "/p/defs.inc"). rewrite E. split; [exact L|]. split; [exact F|]. split; [apply ex_no_nul; vm_compute; reflexivity|]. vm_compute. split; [discriminate|intros; discriminate].
Qed.
Lemma ex_skip_ok fold : left_ok fold ex_skipped.
Proof. unfold left_ok. cbn [ex_skipped blocks_ok]. split; [unfold no_break; vm_compute; no_breaks|]. split; [reflexivity|]. split; [unfold no_break; vm_compute; no_breaks|]. split; [reflexivity|exact I]. Qed.
Lemma ex_asks_ok : hd_ok (fold_name false) ex_asks.
Proof. destruct ex_end as (N1 & N2 & N3). split; [constructor|]. split; [reflexivity|]. split; [exact ex_gap|]. split; [split; [now apply name_okb_ok|split; reflexivity]|]. split; [unfold no_break; vm_compute; no_breaks|]. split; [exact N1|]. split; [exact I|reflexivity]. Qed.
Lemma ex_ends_ok : mark_ok [zs "endif"] ex_ends.
Proof. destruct ex_end as (N1 & N2 & N3). split; [constructor|split; [reflexivity|auto]]. Qed.
Lemma ex_front_program w : w_files w (zs "/p/defs.inc") = Some ex_defs_inc ->
  front_program w [zs "/p"] ex_cdefs false false ex_settings (then_ ex_first ex_rest) ex_consts ex_ks [] 0 ex_cblocks [ex_cline; ex_ret] ([], 3) [6; 2; 201].
Proof.
  intros F. destruct (ex_const_program w [zs "/p"]) as [T H St V Sr B Ch Se As]. constructor; auto.
  - split; [apply ex_no_nul; vm_compute; reflexivity|split; vm_compute; discriminate].
  - cbn [then_ ex_first ex_rest front_ok]. split; [|split; [|split; [exact ex_sp|split; [unfold no_break; vm_compute; no_breaks|exact I]]]].
    + apply ex_include_ok; [|exact F|reflexivity]. unfold located. cbn [rooted app map]. change (in_dir (zs "defs.inc") (zs "/p")) with (zs "/p/defs.inc"). change (rooted (zs "defs.inc")) with false. cbn [app find]. now rewrite F.
    + split; [exact ex_asks_ok|]. split; [exists ex_skipped; split; [reflexivity|apply ex_skip_ok]|]. split; [exact I|]. split; [exact ex_ends_ok|exact I].
Qed.
Example c68_example : forall w, w_cwd w = zs "/p" -> w_files w (zs "/p/defs.inc") = Some ex_defs_inc -> w_files w (zs "once.asm") = Some ex_once -> w_files w (zs "twice.asm") = Some ex_twice ->
  exists s s', main 600 w [zs "-DSize=2"; zs "once.asm"; zs "out.bin"] = Done 0 [(zs "out.bin", [6; 2; 201])] (Some s) /\ s_printed s = [] /\
    main 600 w [zs "-DSize=2"; zs "twice.asm"; zs "out.bin"] = Done 0 [(zs "out.bin", [6; 2; 201])] (Some s') /\ s_printed s' = [].
Proof.
  intros w Cw F F1 F2.
  destruct (c68_again w [] ex_cdefs false false 600 (zs "once.asm") (zs "twice.asm") (zs "out.bin") ExBinary (zs "out") ex_settings ex_first ex_rest ex_consts ex_ks [] 0 ex_cblocks [ex_cline; ex_ret] ([], 3) [6; 2; 201]
      ex_include ex_asks ex_skipped ex_ends (zs "flag") ex_consts) as (s & s' & E & Pr & E' & Pr' & _).
  - constructor.
  - constructor; [|constructor]. split; [now apply name_okb_ok|split; [vm_compute; discriminate|reflexivity]].
  - vm_compute; discriminate.
  - vm_compute; discriminate.
  - vm_compute; discriminate.
  - reflexivity.
  - exact F1.
  - exact F2.
  - right. exists (zs "bin"). split; [reflexivity|]. split; [discriminate|]. split; [vm_compute; intuition discriminate|]. split; [reflexivity|now left].
  - unfold home. rewrite Cw. change (rooted (zs "once.asm")) with false. cbn iota. now apply ex_front_program.
  - vm_compute. reflexivity.
  - reflexivity.
  - reflexivity.
  - unfold home. rewrite Cw. change (rooted (zs "once.asm")) with false. cbn iota. cbn [front_ok]. split; [|split; [|exact I]].
    + apply ex_include_ok; [|exact F|reflexivity]. unfold located. change (in_dir (zs "defs.inc") (zs "/p")) with (zs "/p/defs.inc"). change (rooted (zs "defs.inc")) with false. cbn [app map find]. change (in_dir (zs "defs.inc") (zs "/p")) with (zs "/p/defs.inc"). now rewrite F.
    + split; [exact ex_asks_ok|]. split; [apply ex_skip_ok|]. split; [exact ex_ends_ok|exact I].
  - apply ex_no_nul; vm_compute; reflexivity.
  - vm_compute; discriminate.
  - vm_compute; discriminate.
  - vm_compute. lia.
  - exists s, s'. split; [exact E|split; [exact Pr|split; [exact E'|exact Pr']]].
Qed.
