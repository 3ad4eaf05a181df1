(** Macros that are written in one line with #define (C69). *)
From Verif Require Import Base BaseProofs State MonadProofs StorageModel ErrorsModel ParserModel PreopModel PassOneModel OpcodeTables MainModel FuelProofs UtilsModel UtilsSpec UtilsProofs
  StorageSpec StorageProofs ParserSpec ParserProofs Knot ExportModel ExportSpec InstrSpec MatchSpec MatchProofs MatchProps AsmSpec AsmExpand AsmProofs AsmLine AsmRun AsmProps
  CondSpec CondSkip CondExt CondRun CondProps MacroSpec MacroRun MacroDefs FrontSpec FrontRun MacroProps ConstProps.
#[local] Existing Instance no_params.
#[local] Existing Instance no_frame.
#[local] Existing Instance no_consts.

(** ** Only the name, the parameters and the body of a macro count *)
Definition same_macro (q q' : macro) : Prop := q_name q = q_name q' /\ q_names q = q_names q' /\ q_body q = q_body q'.
Section Rewritten.
Variable wraps ez80 : bool.
Variable fold : text -> text.
Variable tk : text -> bool.
Variable ops : list opcode.
Variable macros macros' : list macro.
Variable constants : Params.
Variable file : text -> option (list Z).
Variable search : list text.
Variable sources : list (text * blocks).
Hypothesis same : Forall2 same_macro macros macros'.
Notation calls1 := (calls wraps ez80 fold tk ops macros constants file search sources).
Notation calls2 := (calls wraps ez80 fold tk ops macros' constants file search sources).
Lemma find_same n : match find_macro fold macros n, find_macro fold macros' n with Some q, Some q' => same_macro q q' | None, None => True | _, _ => False end.
Proof.
  unfold find_macro. revert same. generalize macros macros'. intros l l' F. induction F as [|q q' l l' S0 S1 IH]; [exact I|]. cbn [find]. pose proof S0 as (En & _). rewrite En.
  destruct (eqbl _ _); [exact S0|exact IH].
Qed.
Lemma expansion_same P now here y : match expansion wraps fold macros P now here y, expansion wraps fold macros' P now here y with
  Some (q, P1), Some (q', P2) => same_macro q q' /\ P1 = P2 | None, None => True | _, _ => False end.
Proof.
  unfold expansion. pose proof (find_same (y_name y)) as F. destruct (find_macro fold macros _) as [q|], (find_macro fold macros' _) as [q'|]; try contradiction; [|exact I].
  pose proof F as (_ & En & _). rewrite En. destruct (bind_args _ _ _ _ _ _ _ _); auto.
Qed.
Lemma calls_rewritten depth : alike (calls1 depth) (calls2 depth).
Proof.
  induction depth as [|d IH]; intros P; [apply alike_refl|].
  assert (Ex : forall P now here q q', same_macro q q' -> expanded wraps ez80 fold tk (calls1 d) P now here q = expanded wraps ez80 fold tk (calls2 d) P now here q').
  { intros P0 now here q q' (_ & _ & Eb). unfold expanded. rewrite Eb. apply (proj1 (chosen_same (Pm := P0) (Ca := calls1 d) (calls2 d) wraps ez80 fold tk tk (fun _ => eq_refl) (IH P0))). }
  assert (Pa : forall P now here z, pasted wraps ez80 fold tk file search sources (calls1 d) P now here z = pasted wraps ez80 fold tk file search sources (calls2 d) P now here z).
  { intros P0 now here z. unfold pasted. destruct (source _ _ _ z); [|reflexivity]. apply (proj1 (chosen_same (Pm := P0) (Ca := calls1 d) (calls2 d) wraps ez80 fold tk tk (fun _ => eq_refl) (IH P0))). }
  constructor; cbn [calls call_after call_bytes call_ok paste_after paste_bytes paste_ok].
  - intros now here y. unfold step_after. pose proof (expansion_same P now here y) as E. destruct (expansion _ _ macros _ now here y) as [(q, P')|], (expansion _ _ macros' _ now here y) as [(q', P2)|]; try contradiction; [|reflexivity].
    destruct E as (E & <-). now rewrite (Ex _ _ _ _ _ E).
  - intros t now here y. unfold step_bytes. pose proof (expansion_same P now here y) as E. destruct (expansion _ _ macros _ now here y) as [(q, P')|], (expansion _ _ macros' _ now here y) as [(q', P2)|]; try contradiction; [|reflexivity].
    destruct E as (E & <-). rewrite (Ex _ _ _ _ _ E). destruct (expanded _ _ _ _ _ P' now here q') as [(p, r)|]; [|reflexivity]. now apply (output_same (Pm := P') (Ca := calls1 d) (calls2 d) wraps ez80 fold tk tk (fun _ => eq_refl)).
  - intros now here y. unfold step_ok. repeat (apply and_iff; [reflexivity|]). pose proof (expansion_same P now here y) as E.
    destruct (expansion _ _ macros _ now here y) as [(q, P')|], (expansion _ _ macros' _ now here y) as [(q', P2)|]; try contradiction; [|reflexivity]. destruct E as (E & <-). rewrite (Ex _ _ _ _ _ E).
    pose proof E as (_ & -> & Eb). do 2 (apply and_iff; [reflexivity|]). destruct (expanded _ _ _ _ _ P' now here q') as [(p, r)|]; [|reflexivity]. rewrite Eb. apply and_iff; [reflexivity|].
    now apply (sections_ok_same (Pm := P') (Ca := calls1 d) (calls2 d) wraps ez80 fold ops tk tk (fun _ => eq_refl)).
  - intros now here z. unfold pasted_after. now rewrite Pa.
  - intros t now here z. unfold pasted_bytes. rewrite Pa. destruct (is_import z); [reflexivity|].
    destruct (pasted _ _ _ _ _ _ _ _ _ now here z) as [(p, r)|]; [|reflexivity]. now apply (output_same (Pm := P) (Ca := calls1 d) (calls2 d) wraps ez80 fold tk tk (fun _ => eq_refl)).
  - intros now here z. unfold pasted_ok. repeat (apply and_iff; [reflexivity|]). destruct (is_import z); [reflexivity|]. rewrite Pa.
    destruct (source _ _ _ z) as [b|]; [|reflexivity]. destruct (pasted _ _ _ _ _ _ _ _ _ now here z) as [(p, r)|]; [|reflexivity]. apply and_iff; [reflexivity|].
    now apply (sections_ok_same (Pm := P) (Ca := calls1 d) (calls2 d) wraps ez80 fold ops tk tk (fun _ => eq_refl)).
Qed.
End Rewritten.

(** * C69 *)
(** The second way to write an item: a macro of one line with #define, or with #macro and #endmacro. *)
Definition one_line (o : short) (q : macro) : Prop :=
  q_name q = o_name o /\ q_names q = map pa_name (o_params o) /\ q_body q = Line (mkline (o_first o) (o_more o) None false) Nil.
Definition rewritten (i i' : item) : Prop :=
  i = i' \/ exists o q, one_line o q /\ (i = IShort o /\ i' = IMacro q \/ i = IMacro q /\ i' = IShort o).
Lemma rewritten_macros hs hs' : Forall2 rewritten hs hs' -> Forall2 same_macro (header_macros hs) (header_macros hs').
Proof.
  unfold header_macros. induction 1 as [|i i' l l' H F IH]; [constructor|]. cbn [flat_map]. destruct H as [<-|(o & q & (En & Ea & Eb) & [(-> & ->)|(-> & ->)])].
  - apply Forall2_app; [|exact IH]. destruct i; repeat constructor.
  - constructor; [|exact IH]. split; [exact (eq_sym En)|split; [exact (eq_sym Ea)|exact (eq_sym Eb)]].
  - constructor; [|exact IH]. split; [exact En|split; [exact Ea|exact Eb]].
Qed.
Lemma rewritten_name i i' : rewritten i i' -> item_name i = item_name i'.
Proof. intros [<-|(o & q & (En & _) & [(-> & ->)|(-> & ->)])]; [reflexivity|exact (eq_sym En)|exact En]. Qed.
Lemma rewritten_names fold hs hs' n : Forall2 rewritten hs hs' -> header_name fold hs n = header_name fold hs' n.
Proof. unfold header_name. induction 1 as [|i i' l l' H F IH]; [reflexivity|]. cbn [existsb]. now rewrite IH, (rewritten_name _ _ H). Qed.
Lemma rewritten_values wraps fold os hs hs' : Forall2 rewritten hs hs' -> values wraps fold [] [] (os ++ hs) = values wraps fold [] [] (os ++ hs').
Proof.
  intros F. assert (G : forall l l', Forall2 rewritten l l' -> forall known levels, values wraps fold known levels l = values wraps fold known levels l').
  { induction 1 as [|i i' l l' H F' IH]; intros known levels; [reflexivity|]. destruct H as [<-|(o & q & _ & [(-> & ->)|(-> & ->)])]; [|exact (IH _ _)|exact (IH _ _)]. destruct i as [q|c|o]; cbn [values]; [apply IH| |apply IH].
    destruct (val _ _ _ _ _); [|reflexivity]. destruct (_ && _); [apply IH|reflexivity]. }
  apply G. apply Forall2_app; [|exact F]. induction os; constructor; [now left|assumption].
Qed.
Lemma rewrite_header w search defs ez80 case os hs hs' ks srcs depth b p r bts : Forall2 rewritten hs hs' ->
  header_ok (fold_name case) (defined_name case defs) (instructions ez80) hs' -> source_text (header_text hs' ++ blocks_text b) ->
  macro_program w search defs ez80 case os hs ks srcs depth b p r bts -> macro_program w search defs ez80 case os hs' ks srcs depth b p r bts.
Proof.
  intros Rw Ho St [Tx Mo Os Vk Sr Bo Ch So As].
  assert (Same : forall n, known_names case defs hs n = known_names case defs hs' n) by (intros n; unfold known_names; now rewrite (rewritten_names _ _ _ _ Rw)).
  pose proof (calls_same (w_wrap w) ez80 (fold_name case) (instructions ez80) (header_macros hs) ks (w_files w) search srcs _ _ Same depth) as Al.
  pose proof (calls_rewritten (w_wrap w) ez80 (fold_name case) (known_names case defs hs') (instructions ez80) _ _ ks (w_files w) search srcs (rewritten_macros _ _ Rw) depth) as Al2.
  set (Ca := macro_calls w search defs ez80 case hs ks srcs depth) in *. set (Ca' := macro_calls w search defs ez80 case hs' ks srcs depth) in *. set (Cm := calls _ _ _ _ _ _ _ _ _ _ _) in Al at 2.
  change (alike Ca Cm) in Al. change (alike Cm Ca') in Al2. pose proof (Al ks) as A1. pose proof (Al2 ks) as A2. constructor; auto.
  - now rewrite <- (rewritten_values _ _ _ _ _ Rw).
  - now apply (proj1 (blocks_ok_same (Pm := ks) (fold_name case) _ _ Same)).
  - rewrite (proj1 (chosen_same (Pm := ks) (Ca := Ca) Cm (w_wrap w) ez80 (fold_name case) _ _ Same A1)) in Ch. now rewrite (proj1 (chosen_same (Pm := ks) (Ca := Cm) Ca' (w_wrap w) ez80 (fold_name case) _ _ (fun _ => eq_refl) A2)) in Ch.
  - apply (sections_ok_same (Pm := ks) (Ca := Ca) Cm (w_wrap w) ez80 (fold_name case) (instructions ez80) _ _ Same A1) in So. now apply (sections_ok_same (Pm := ks) (Ca := Cm) Ca' (w_wrap w) ez80 (fold_name case) (instructions ez80) _ _ (fun _ => eq_refl) A2) in So.
  - rewrite (assemble_same (Pm := ks) (Ca := Ca) Cm (w_wrap w) ez80 (fold_name case) _ _ Same A1) in As. now rewrite (assemble_same (Pm := ks) (Ca := Cm) Ca' (w_wrap w) ez80 (fold_name case) _ _ (fun _ => eq_refl) A2) in As.
Qed.
Theorem c69_one_line : forall w dirs defs ez80 case fuel input other output x stem os hs hs' ks srcs depth b p r bts,
  Forall dir_ok dirs -> Forall option_ok defs -> hd0 input <> 45 -> hd0 other <> 45 -> hd0 output <> 45 -> home (w_cwd w) other = home (w_cwd w) input ->
  w_files w input = Some (header_text hs ++ blocks_text b) -> w_files w other = Some (header_text hs' ++ blocks_text b) -> plain_name output x stem ->
  Forall2 rewritten hs hs' -> header_ok (fold_name case) (defined_name case defs) (instructions ez80) hs' -> source_text (header_text hs' ++ blocks_text b) ->
  macro_program w (home (w_cwd w) input :: dirs) defs ez80 case os hs ks srcs depth b p r bts -> zlen bts <= 8000000 ->
  (length (header_text hs ++ blocks_text b) + sources_size srcs + 3 * depth + 50 <= fuel)%nat -> (length (header_text hs' ++ blocks_text b) + sources_size srcs + 3 * depth + 50 <= fuel)%nat ->
  exists s s', main fuel w (command_in dirs defs ez80 case input output) = Done 0 [(output, exported_bytes x bts)] (Some s) /\ s_printed s = [] /\
    main fuel w (command_in dirs defs ez80 case other output) = Done 0 [(output, exported_bytes x bts)] (Some s') /\ s_printed s' = [] /\
    forall n, option_map l_value (tfind (fold_name case n) (s_labels s)) = option_map l_value (tfind (fold_name case n) (s_labels s')).
Proof.
  intros w dirs defs ez80 case fuel input other output x stem os hs hs' ks srcs depth b p r bts Hd Od Hi Ht Ho Hm F1 F2 Pl Rw Hk St Mp Rm Fu Fu'.
  pose proof (rewrite_header _ _ _ _ _ _ _ _ _ _ _ _ _ _ _ Rw Hk St Mp) as Mp'. rewrite <- Hm in Mp'.
  destruct (c53_files_partial w dirs defs ez80 case fuel input output x stem os hs ks srcs depth b p r bts Hd Od Hi Ho F1 Pl Mp Rm Fu) as (s & E & Pr & Lb).
  destruct (c53_files_partial w dirs defs ez80 case fuel other output x stem os hs' ks srcs depth b p r bts Hd Od Ht Ho F2 Pl Mp' Rm Fu') as (s' & E' & Pr' & Lb').
  exists s, s'. repeat (split; [assumption|]). intros n. now rewrite Lb, Lb'.
Qed.

(** The macro pair of the example of C51, in one line. *)
Definition ex_short : short := mkshort [] (zs "define") sp (zs "pair") [mkparam [] (zs "a") []; mkparam sp (zs "b") []]
  (l_first (db2 (zs "a") (zs "b") (ex_name (zs "a")) (ex_name (zs "b")))) [] (Some (zs " in one line")) false.
Definition ex_header' : list item := [IShort ex_short; IMacro ex_twice].
Example ex_short_text : header_text ex_header' = zs "#define pair(a, b) .db a,b; in one line" ++ [10] ++ macro_text ex_twice.
Proof. reflexivity. Qed.
Lemma ex_header_ok' : header_ok (fold_name false) (defined_name false []) opcode_list ex_header'.
Proof.
  pose proof ex_header_ok as (Fo & _). inversion Fo as [|? ? _ F2]; subst. split; [|vm_compute; reflexivity]. constructor; [|exact F2]. split; [|vm_compute; reflexivity].
  assert (S1 : Forall blank sp) by exact ex_sp.
  split; [constructor|]. split; [reflexivity|]. split; [exact ex_gap|]. split; [now apply name_okb_ok|]. split; [reflexivity|]. split; [reflexivity|]. split; [vm_compute; intuition discriminate|]. split; [vm_compute; reflexivity|].
  split; [repeat (apply Forall_cons; [split; [first [exact S1|apply Forall_nil]|split; [now apply name_okb_ok|split; [constructor|vm_compute; discriminate]]]|]); constructor|].
  split; [cbn; lia|]. split; [vm_compute; reflexivity|]. split; [reflexivity|]. split; [vm_compute; intuition discriminate|].
  split; [vm_compute; repeat (apply Forall_cons; [repeat split; discriminate|]); apply Forall_nil|]. split; [unfold no_break; vm_compute; no_breaks|vm_compute; intuition discriminate].
Qed.
Example c69_example : forall w, w_files w (zs "in.asm") = Some (header_text ex_header ++ blocks_text ex_calls) -> w_files w (zs "short.asm") = Some (header_text ex_header' ++ blocks_text ex_calls) ->
  exists s s', main 400 w [zs "in.asm"; zs "out.bin"] = Done 0 [(zs "out.bin", [2; 7; 201])] (Some s) /\ s_printed s = [] /\
    main 400 w [zs "short.asm"; zs "out.bin"] = Done 0 [(zs "out.bin", [2; 7; 201])] (Some s') /\ s_printed s' = [].
Proof.
  intros w F1 F2. destruct (c69_one_line w [] [] false false 400 (zs "in.asm") (zs "short.asm") (zs "out.bin") ExBinary (zs "out") [] ex_header ex_header' [] [] 2 ex_calls ex_mprogram ([(zs "size", 2)], 3) [2; 7; 201]) as (s & s' & E & Pr & E' & Pr' & _).
  - constructor.
  - constructor.
  - vm_compute; discriminate.
  - vm_compute; discriminate.
  - vm_compute; discriminate.
  - reflexivity.
  - exact F1.
  - exact F2.
  - right. exists (zs "bin"). split; [reflexivity|]. split; [discriminate|]. split; [vm_compute; intuition discriminate|]. split; [reflexivity|now left].
  - constructor; [|constructor; [now left|constructor]]. right. exists ex_short, ex_pair. split; [repeat split; reflexivity|now right].
  - exact ex_header_ok'.
  - split; [|split; [vm_compute; discriminate|vm_compute; discriminate]].
    assert (E : forallb (fun c => negb (c =? 0)) (header_text ex_header' ++ blocks_text ex_calls) = true) by (vm_compute; reflexivity). rewrite forallb_forall in E. apply Forall_forall. intros c Hc. specialize (E c Hc). cbv beta in E. lia.
  - apply ex_macro_program.
  - vm_compute; discriminate.
  - vm_compute. lia.
  - vm_compute. lia.
  - exists s, s'. repeat (split; [assumption|]). assumption.
Qed.
(** Two statements in one line. *)
Example c69_bcall : let t := zs "#define bcall(label) rst 28h \ .dw label" ++ [10] ++ zs " bcall(4540h)" ++ [10] in
  match main 200 (mkworld (fun n => if eqbl n (zs "in.asm") then Some t else None) (fun _ => 0) (zs "/p") (fun _ => []) true) [zs "in.asm"; zs "out.bin"] with Done 0 l _ => l | _ => [] end
  = [(zs "out.bin", [239; 64; 69])].
Proof. vm_compute. reflexivity. Qed.
Print Assumptions c69_one_line.
