(** Programs with macros (C51). *)
From Verif Require Import Base BaseProofs State MonadProofs StorageModel ErrorsModel ParserModel PreopModel PassOneModel OpcodeTables MainModel FuelProofs UtilsModel UtilsSpec UtilsProofs
  StorageSpec StorageProofs ParserSpec ParserProofs Knot ExportModel ExportSpec InstrSpec MatchSpec MatchProofs MatchProps AsmSpec AsmExpand AsmProofs AsmLine AsmRun AsmProps
  CondSpec CondSkip CondExt CondRun CondProps MacroSpec MacroRun MacroDefs FrontSpec FrontRun.
From Verif Require DefineProofs.
#[local] Existing Instance no_params.
#[local] Existing Instance no_frame.
#[local] Existing Instance no_consts.

(** ** The table of names is seen only through its answers *)
Section CallsSame.
Variable wraps ez80 : bool.
Variable fold : text -> text.
Variable ops : list opcode.
Variable macros : list macro.
Variable constants : Params.
Variable file : text -> option (list Z).
Variable search : list text.
Variable sources : list (text * blocks).
Variable tk tk' : text -> bool.
Hypothesis same : forall n, tk n = tk' n.
Notation calls1 := (calls wraps ez80 fold tk ops macros constants file search sources).
Notation calls2 := (calls wraps ez80 fold tk' ops macros constants file search sources).
Lemma expanded_same a b P now here q : alike a b -> expanded wraps ez80 fold tk a P now here q = expanded wraps ez80 fold tk' b P now here q.
Proof. intros A. unfold expanded. apply (proj1 (chosen_same (Pm := P) (Ca := a) b wraps ez80 fold tk tk' same (A P))). Qed.
Lemma pasted_same a b P now here z : alike a b -> pasted wraps ez80 fold tk file search sources a P now here z = pasted wraps ez80 fold tk' file search sources b P now here z.
Proof. intros A. unfold pasted. destruct (source _ _ _ z); [|reflexivity]. apply (proj1 (chosen_same (Pm := P) (Ca := a) b wraps ez80 fold tk tk' same (A P))). Qed.
Lemma calls_same depth : alike (calls1 depth) (calls2 depth).
Proof.
  induction depth as [|d IH]; intros P; [apply alike_refl|]. constructor; cbn [calls call_after call_bytes call_ok paste_after paste_bytes paste_ok].
  - intros now here y. unfold step_after. destruct (expansion _ _ _ _ now here y) as [(q, P')|]; [|reflexivity]. now rewrite (expanded_same _ _ P' now here q IH).
  - intros t now here y. unfold step_bytes. destruct (expansion _ _ _ _ now here y) as [(q, P')|]; [|reflexivity]. rewrite (expanded_same _ _ P' now here q IH).
    destruct (expanded _ _ _ _ _ P' now here q) as [(p, r)|]; [|reflexivity]. now apply (output_same (Pm := P') (Ca := calls1 d) (calls2 d) wraps ez80 fold tk tk' same).
  - intros now here y. unfold step_ok. repeat (apply and_iff; [reflexivity|]). apply and_iff.
    { rewrite !Forall_forall. split; intros H w I; specialize (H w I); (split; [|apply H]); apply (known_ok_same (Pm := P) fold tk tk' same); apply H. }
    destruct (expansion _ _ _ _ now here y) as [(q, P')|]; [|reflexivity]. do 2 (apply and_iff; [reflexivity|]). rewrite (expanded_same _ _ P' now here q IH).
    destruct (expanded _ _ _ _ _ P' now here q) as [(p, r)|]; [|reflexivity]. apply and_iff.
    + apply (proj1 (blocks_ok_same (Pm := P') fold tk tk' same)).
    + now apply (sections_ok_same (Pm := P') (Ca := calls1 d) (calls2 d) wraps ez80 fold ops tk tk' same).
  - intros now here z. unfold pasted_after. now rewrite (pasted_same _ _ _ now here z IH).
  - intros t now here z. unfold pasted_bytes. rewrite (pasted_same _ _ _ now here z IH). destruct (is_import z); [reflexivity|].
    destruct (pasted _ _ _ _ _ _ _ _ _ now here z) as [(p, r)|]; [|reflexivity]. now apply (output_same (Pm := P) (Ca := calls1 d) (calls2 d) wraps ez80 fold tk tk' same).
  - intros now here z. unfold pasted_ok. repeat (apply and_iff; [reflexivity|]). destruct (is_import z); [reflexivity|]. rewrite (pasted_same _ _ _ now here z IH).
    destruct (source _ _ _ z) as [b|]; [|reflexivity]. destruct (pasted _ _ _ _ _ _ _ _ _ now here z) as [(p, r)|]; [|reflexivity]. apply and_iff.
    + apply (proj1 (blocks_ok_same (Pm := P) fold tk tk' same)).
    + now apply (sections_ok_same (Pm := P) (Ca := calls1 d) (calls2 d) wraps ez80 fold ops tk tk' same).
Qed.
End CallsSame.

(** ** The run *)
Lemma walk_symbols' {Pm : Params} {Ca : Calls} C D l : forall now here t h, walk C D now here l = Some (t, h) -> symbols (c_wrap C) (c_ez80 C) (key C) (taken C D) now here l = Some t.
Proof. induction l as [|x l IH]; intros now here t h; cbn [walk symbols]; [intros [= <- _]; reflexivity|]. destruct (after _ _ _ _ now here x) as [(a, b)|]; [apply IH|discriminate]. Qed.
Lemma macro_plain C ops q : macro_ok (key C) ops q -> plain_macro C ops q.
Proof.
  intros (Bi & Wd & Gb & On & Nl & Nf & N46 & Nop & Pp & Oe & Bs & Bo & Fr & Om). unfold plain_macro. repeat (split; [assumption|]). split; [|exact Bs].
  unfold q_names. destruct (q_params q) as [l|]; [|constructor]. destruct Pp as (_ & Op & _). apply Forall_map. eapply Forall_impl; [|exact Op]. intros p (_ & N & _). exact N.
Qed.
Lemma short_plain C ops o : short_ok (key C) ops o -> plain_macro C ops (as_macro o).
Proof.
  intros (Bi & Wd & Gb & On & Nl & Nf & N46 & Nop & Op & L16 & Di & Lb & _). unfold plain_macro. cbn [as_macro q_name q_body q_names q_params body_start]. repeat (split; [assumption|]). split; [|cbn [l_first]; now rewrite Lb].
  apply Forall_map. eapply Forall_impl; [|exact Op]. intros p (_ & N & _). exact N.
Qed.
Lemma header_macro q l : In q (header_macros l) -> In (IMacro q) l \/ exists o, In (IShort o) l /\ q = as_macro o.
Proof.
  unfold header_macros. rewrite in_flat_map. intros ([y|c|o] & I & H); [destruct H as [<-|[]]; auto|destruct H|destruct H as [<-|[]]; eauto].
Qed.
Lemma body_item q l : In q (header_macros l) -> exists i, In i l /\ (length (blocks_text (q_body q)) <= length (item_text i))%nat.
Proof.
  intros H. apply header_macro in H as [I|(o & I & ->)]; eexists; (split; [exact I|]); cbn [item_text].
  - unfold macro_text. rewrite !app_length. lia.
  - unfold short_text, eol_text. cbn [as_macro q_body blocks_text]. unfold line_text. cbn [l_first l_more l_comment l_cr app]. fold (o_body o). rewrite app_nil_r.
    replace (section_text (o_first o) ++ flat_map (fun x => 92 :: section_text x) (o_more o) ++ [10]) with (o_body o ++ [10]) by (unfold o_body; now rewrite <- app_assoc).
    rewrite !app_length. cbn [length]. rewrite !app_length. cbn [length]. rewrite !app_length. cbn [length]. rewrite !app_length. lia.
Qed.
Lemma body_size l : Forall (fun q => (length (blocks_text (q_body q)) + 24 <= length (header_text l) + 24)%nat) (header_macros l).
Proof.
  assert (H : forall i, In i l -> (length (item_text i) <= length (header_text l))%nat).
  { induction l as [|y l IH]; [intros q []|]. cbn [header_text flat_map]. fold (header_text l). intros q [<-|I]; rewrite app_length; [lia|]. specialize (IH q I). lia. }
  apply Forall_forall. intros q I. apply body_item in I as (i & I & L). specialize (H _ I). lia.
Qed.
(** The lengths of the sources. *)
Definition sources_size (l : list (text * blocks)) : nat := length (flat_map (fun x => blocks_text (snd x)) l).
Lemma source_size l : Forall (fun x => (length (blocks_text (snd x)) + 24 <= sources_size l + 24)%nat) l.
Proof.
  assert (H : forall x, In x l -> (length (blocks_text (snd x)) <= sources_size l)%nat).
  { unfold sources_size. induction l as [|y l IH]; [intros x []|]. cbn [flat_map]. intros x [<-|I]; rewrite app_length; [lia|]. specialize (IH x I). lia. }
  apply Forall_forall. intros x I. specialize (H x I). lia.
Qed.
Lemma distinct_app (f : text -> text) a b : distinct f a = true -> distinct f b = true -> (forall x y, In x a -> In y b -> f x <> f y) -> distinct f (a ++ b) = true.
Proof.
  induction a as [|x a IH]; intros Ha Hb N; [exact Hb|]. cbn [app distinct] in *. apply andb_true_iff in Ha as (H1 & H2). apply andb_true_iff. split; [|apply IH; auto; intros; apply N; auto; now right].
  rewrite forallb_app, H1. apply forallb_forall. intros y I. apply negb_true_iff, eqbl_neq. apply N; [now left|exact I].
Qed.
(** The text of an item that counts is read. *)
Lemma front_items C l : forall d hs, counted (key C) d l = Some hs -> forall i, In i hs -> (length (item_text i) <= front_size l)%nat.
Proof.
  induction l as [|i l IH|b c cr l IH|y l1 IH1 l IH|h l1 IH1 a l IH|h o m l1 IH1 e l IH|h o e l IH]; intros d hs H q I; cbn [counted front_size] in *.
  - injection H as <-. destruct I.
  - apply joined_some in H as (a & b & [= <-] & H & ->). destruct I as [<-|I]; [lia|]. specialize (IH _ _ H q I). lia.
  - specialize (IH _ _ H q I). lia.
  - apply joined_some in H as (a & b & H1 & H & ->). apply in_app_or in I as [I|I]; [specialize (IH1 _ _ H1 q I)|specialize (IH _ _ H q I)]; lia.
  - apply joined_some in H as (a0 & b & H1 & H & ->). apply only_some in H1 as (_ & H1). apply in_app_or in I as [I|I]; [specialize (IH1 _ _ H1 q I)|specialize (IH _ _ H q I)]; lia.
  - apply joined_some in H as (a0 & b & H1 & H & ->). apply only_some in H1 as (_ & H1). apply in_app_or in I as [I|I]; [specialize (IH1 _ _ H1 q I)|specialize (IH _ _ H q I)]; lia.
  - apply only_some in H as (_ & H). specialize (IH _ _ H q I). lia.
Qed.
Lemma front_bodies C l hs d : counted (key C) d l = Some hs -> Forall (fun q => (length (blocks_text (q_body q)) + 24 <= front_size l + 24)%nat) (header_macros hs).
Proof.
  intros H. apply Forall_forall. intros q I. apply body_item in I as (i & I & L'). pose proof (front_items C l d hs H _ I) as L. lia.
Qed.
Lemma front_run C D0 dirs input output n depth os l hs (ks : Params) srcs b p r bts x stem (tk := fun n => taken C D0 n || header_name (key C) hs n)
  (Ca := calls (c_wrap C) (c_ez80 C) (key C) tk (instructions (c_ez80 C)) (header_macros hs) ks (c_files C) (c_cwd C :: dirs) srcs depth) : c_normal C = true -> c_counter C = false -> c_symtable C = false ->
  (forall w, ~ name_start (hd0 w) -> tfind (key C w) D0 = None) -> (forall k d, tfind k D0 = Some d -> d_contents d <> None) ->
  front_ok (key C) (c_files C) (c_cwd C :: dirs) l -> counted (key C) (taken C D0) l = Some hs -> header_ok (key C) (taken C D0) (instructions (c_ez80 C)) hs -> values (c_wrap C) (key C) [] [] (os ++ hs) = Some ks ->
  Forall (fun i => exists c d, i = IConst c /\ eqbl (key C (v_name c)) (zs "__LINE") = false /\ eqbl (key C (v_name c)) (zs "__FILE") = false /\ tfind (key C (v_name c)) D0 = Some d /\ item_kept i d) os -> distinct (key C) (map item_name os) = true -> sources_ok (c_files C) srcs ->
  Forall (fun c => c <> 0) (front_text l ++ blocks_text b) -> front_text l ++ blocks_text b <> [] -> hd0 (front_text l ++ blocks_text b) <> 239 -> blocks_ok (P := ks) (key C) tk false b ->
  chosen (P := ks) (Ca := Ca) (c_wrap C) (c_ez80 C) (key C) tk [] 0 b = Some (p, r) ->
  sections_ok (P := ks) (Ca := Ca) (c_wrap C) (c_ez80 C) (key C) tk (instructions (c_ez80 C)) [] 0 (sections p) ->
  assemble (P := ks) (Ca := Ca) (c_wrap C) (c_ez80 C) (key C) tk p = Some bts -> zlen bts <= 8000000 ->
  (front_size l + length (blocks_text b) + sources_size srcs + 3 * depth + 50 <= n)%nat ->
  plain_name output x stem -> c_files C input = Some (front_text l ++ blocks_text b) ->
  exists s, run_assembly C (knot C n) None output (init_state (c_ez80 C) input dirs D0) = Ok 0 s /\
    s_outfiles s = [(output, exported_bytes x bts)] /\ s_printed s = [] /\
    forall n, option_map l_value (tfind (key C n) (s_labels s)) = assoc (key C) (fst r) n.
Proof.
  intros Nm Nc Ns Dn Df Fo Ct Mo Vk Os Dos Sr Z0 Ne Ne2 Bo Ch So As Rm Fu Pl Src. destruct r as (T, h). cbn [fst].
  destruct n as [|[|m]]; try lia. pose proof (front_length l) as Fl0. assert (Hm : (20 <= m)%nat) by lia.
  assert (Kt : instructions (c_ez80 C) = opcode_list \/ instructions (c_ez80 C) = opcode_list_ez80) by (destruct (c_ez80 C); auto).
  destruct Mo as (Mo & Di). set (ms := header_macros hs) in *.
  apply (run_gen C Nm Nc Ns D0 dirs input None output (S (S m)) (front_text l ++ blocks_text b) T bts x stem); auto; [|lia|].
  { destruct (front_text l ++ blocks_text b) as [|c u]; [congruence|]. eauto. }
  intros s3 G. pose (dr := fresh_dirs (c_cwd C :: dirs) : Dirs). change (@good (eq 0) dr no_params [] no_consts C D0 (instructions (c_ez80 C)) 1 [] 0 [] [] s3) in G. pose proof G as G0.
  apply good_any in G. assert (L3 : s_iflevel s3 = 0) by (destruct G0 as (_ & A & _); exact (eq_sym (a_level _ _ _ _ A))).
  destruct (front_pass C (instructions (c_ez80 C)) l m (blocks_text b) D0 s3 hs) with (fuel := S (S m)) as (D & s' & f' & L' & E' & G' & Da & Vl); auto; [lia|lia|split; [|exact Di]|rewrite app_length; lia|].
  { eapply Forall_impl; [|exact Mo]. intros q (Oq & Nq). split; [exact Oq|]. rewrite taken_find in Nq. unfold isSome in Nq. now destruct (tfind _ D0). }
  assert (Same : forall n, tk n = taken C D n) by (intros n; unfold tk; symmetry; now apply after_taken).
  assert (On : Forall (fun q => name_ok (item_name q)) hs) by (eapply Forall_impl; [|exact Mo]; intros [q|c|o] (Oq & _); apply Oq).
  pose proof (after_names C hs D0 D Da On Dn) as Dn'. pose proof (after_full C hs D0 D Da Df) as Df'.
  destruct (values_known C D (os ++ hs) [] [] ks Vk) as (lvs & Lo); auto.
  { intros n v H. discriminate H. }
  { apply Forall_app. split; [eapply Forall_impl; [|exact Os]; intros i (c & d & -> & NL & NF & _); auto|].
    eapply Forall_impl; [|exact Mo]. intros [q|c|o] (Oq & _); [exact I| |exact I]. destruct Oq as (_ & _ & _ & _ & NL & NF & _). auto. }
  { intros i I. apply in_app_or in I as [I|I]; [|exact (proj1 Da i I)]. rewrite Forall_forall in Os. destruct (Os i I) as (c & d & -> & _ & _ & Fd & Kp). exists d. split; [|exact Kp]. cbn [item_name].
    rewrite (proj2 Da); [exact Fd|]. eapply Forall_impl; [|exact Mo]. intros q (_ & Nq). rewrite taken_find in Nq. destruct (eqbl (key C (v_name c)) (key C (item_name q))) eqn:E; [|reflexivity]. apply eqbl_eq in E. rewrite <- E, Fd in Nq. discriminate Nq. }
  { rewrite map_app. apply distinct_app; [exact Dos|exact Di|]. intros a c Ia Ic. apply in_map_iff in Ia as (ia & <- & Ia). apply in_map_iff in Ic as (ic & <- & Ic). rewrite Forall_forall in Os, Mo.
    destruct (Os ia Ia) as (c & d & -> & _ & _ & Fd & _). destruct (Mo ic Ic) as (_ & Nq). rewrite taken_find in Nq. cbn [item_name]. intros E. rewrite <- E, Fd in Nq. discriminate Nq. }
  apply (constants_good C any_level D (instructions (c_ez80 C)) ks lvs s' Dn' Lo) in G'.
  set (Ca' := calls (c_wrap C) (c_ez80 C) (key C) (taken C D) (instructions (c_ez80 C)) ms ks (c_files C) (c_cwd C :: dirs) srcs depth).
  pose proof (calls_same (c_wrap C) (c_ez80 C) (key C) (instructions (c_ez80 C)) ms ks (c_files C) (c_cwd C :: dirs) srcs tk (taken C D) Same depth) as Al. fold Ca Ca' in Al. pose proof (Al ks) as A1.
  apply (proj1 (blocks_ok_same (Pm := ks) (key C) tk (taken C D) Same)) in Bo.
  rewrite (proj1 (chosen_same (Pm := ks) (Ca := Ca) Ca' (c_wrap C) (c_ez80 C) (key C) tk (taken C D) Same A1)) in Ch.
  apply (sections_ok_same (Pm := ks) (Ca := Ca) Ca' (c_wrap C) (c_ez80 C) (key C) (instructions (c_ez80 C)) tk (taken C D) Same A1) in So.
  rewrite (assemble_same (Pm := ks) (Ca := Ca) Ca' (c_wrap C) (c_ez80 C) (key C) tk (taken C D) Same A1) in As.
  pose proof (proj1 (chosen_walk (Pm := ks) (Ca := Ca') C D) _ _ _ _ _ Ch) as W. pose proof (walk_symbols' (Pm := ks) (Ca := Ca') _ _ _ _ _ _ _ W) as Sy. unfold assemble in As. rewrite Sy in As.
  assert (Mp : Forall (plain_macro C (instructions (c_ez80 C))) ms).
  { apply Forall_forall. intros q I. rewrite Forall_forall in Mo. apply header_macro in I as [I|(o & I & ->)]; destruct (Mo _ I) as (Oq & _); [exact (macro_plain _ _ _ Oq)|exact (short_plain _ _ _ Oq)]. }
  assert (Dm : forall q, In q ms -> exists d, tfind (key C (q_name q)) D = Some d /\ d_args d = q_names q /\ d_contents d <> None /\ forall t, d_contents d = Some t -> kept_body q t).
  { intros q I. apply header_macro in I as [I|(o & I & ->)]; destruct (proj1 Da _ I) as (d & Fd & Kp); exists d; (split; [exact Fd|]); destruct Kp as (Ka & Kc); (split; [exact Ka|]); rewrite Kc; (split; [discriminate|]); intros t [= <-].
    - now left.
    - right. eexists. split; [reflexivity|]. split; reflexivity. }
  assert (Y1 : Forall (fun q => (length (blocks_text (q_body q)) + 24 <= front_size l + sources_size srcs + 24)%nat) ms) by (eapply Forall_impl; [|exact (front_bodies C l hs _ Ct)]; intros q Hq; cbn in Hq; lia).
  assert (Y2 : Forall (fun x => (length (blocks_text (snd x)) + 24 <= front_size l + sources_size srcs + 24)%nat) srcs) by (eapply Forall_impl; [|exact (source_size srcs)]; intros q Hq; cbn in Hq; lia).
  pose proof (calls_runs (Cs := ks) C D (instructions (c_ez80 C)) Nm Nc Dn' Df' (S (S m)) ltac:(lia) Kt ms Dm Mp srcs Sr (front_size l + sources_size srcs + 24) Y1 Y2 depth) as Cr.
  pose proof (calls_laws (Cs := ks) C D (instructions (c_ez80 C)) Dn' (S (S m)) ltac:(lia) ms srcs depth ks) as Cl. change (@consts ks) with ks in Cr, Cl. fold Ca' in Cr, Cl.
  destruct (run_all (Pm := ks) (fr := []) (Cs := ks) (Ca := Ca') C D (instructions (c_ez80 C)) Nm Nc Dn' Df' (S (S m)) ltac:(lia) Kt _ Cl (fun lv Hl => Cr lv ks [] Hl) m 1 T Hm ltac:(lia) ltac:(lia) _ (pass_takes C m)) as (Rb & _).
  assert (Ld : leads (Pm := ks) (fr := []) (Cs := ks) C D (instructions (c_ez80 C)) (S (S m)) 1 T (pass_loop (knot C (S (S m)))) (blocks_text b ++ []) [] s' (s_iflevel s') T h [] [] bts).
  { apply (Rb b false [] 0 s' [] [] p T h bts []); auto.
    - split; [exact So|]. split; [exact As|]. split; [intros ? ? E; exact E|]. change (zlen []) with 0. lia.
    - rewrite app_nil_r. lia.
    - lia. }
  rewrite app_nil_r in Ld. destruct (Ld f') as (fuel' & s4 & b0 & q & Lf & Ep & G4 & Fl & _); [exact L'|].
  destruct fuel' as [|f]; [cbn in Lf; lia|]. exists D, ks, ks, any_level, h, s4, b0, q. split; [rewrite E', Ep; reflexivity|]. split; [exact G4|exact Fl].
Qed.

(** * C51 *)
(** The names that are defined, and the calls of the macros of a program. *)
Definition known_names (case : bool) (defs : list (text * text)) (hs : list item) (n : text) : bool := defined_name case defs n || header_name (fold_name case) hs n.
Definition macro_calls (w : world) (search : list text) (defs : list (text * text)) (ez80 case : bool) (hs : list item) (ks : Params) (srcs : list (text * blocks)) (depth : nat) : Calls :=
  calls (w_wrap w) ez80 (fold_name case) (known_names case defs hs) (instructions ez80) (header_macros hs) ks (w_files w) search srcs depth.
(** Symbols of the command line, and those that are always there, that stand for expressions. *)
Definition setting (x : text * written) : item := IConst (mkconstant [] (zs "define") [32] (fst x) (Some (snd x)) (mkending [] None false)).
Definition setting_ok (defs : list (text * text)) (x : text * written) : Prop :=
  fold_name false (fst x) = fst x /\ given defs (fst x) = Some (wr (snd x)) /\ written_ok (P := no_params) (snd x) /\
  forallb (fun c => negb (memb c [10; 13; 34; 39; 59; 92])) (w_text (snd x)) = true.
(** A file with definitions of macros and constants, and then lines and conditional blocks that use them. *)
Record macro_program (w : world) (search : list text) (defs : list (text * text)) (ez80 case : bool) (os : list (text * written)) (hs : list item) (ks : Params) (srcs : list (text * blocks)) (depth : nat) (b : blocks) (p : list line) (r : table * Z) (bts : list Z) : Prop := {
  mp_text : Forall (fun c => c <> 0) (header_text hs ++ blocks_text b) /\ header_text hs ++ blocks_text b <> [] /\ hd0 (header_text hs ++ blocks_text b) <> 239;
  mp_header : header_ok (fold_name case) (defined_name case defs) (instructions ez80) hs;
  mp_settings : Forall (setting_ok defs) os /\ distinct (fold_name case) (map fst os) = true;
  mp_values : values (w_wrap w) (fold_name case) [] [] (map setting os ++ hs) = Some ks;
  mp_sources : sources_ok (w_files w) srcs;
  mp_blocks : blocks_ok (P := ks) (fold_name case) (known_names case defs hs) false b;
  mp_chosen : chosen (P := ks) (Ca := macro_calls w search defs ez80 case hs ks srcs depth) (w_wrap w) ez80 (fold_name case) (known_names case defs hs) [] 0 b = Some (p, r);
  mp_lines : sections_ok (P := ks) (Ca := macro_calls w search defs ez80 case hs ks srcs depth) (w_wrap w) ez80 (fold_name case) (known_names case defs hs) (instructions ez80) [] 0 (sections p);
  mp_bytes : assemble (P := ks) (Ca := macro_calls w search defs ez80 case hs ks srcs depth) (w_wrap w) ez80 (fold_name case) (known_names case defs hs) p = Some bts }.

(** The same, with anything in front of the lines that may stand there: definitions, blank lines and
    comments, files that are included, and conditionals that ask for names.  [hs] are the definitions that count. *)
Record front_program (w : world) (search : list text) (defs : list (text * text)) (ez80 case : bool) (os : list (text * written)) (l : front) (hs : list item) (ks : Params) (srcs : list (text * blocks)) (depth : nat) (b : blocks) (p : list line) (r : table * Z) (bts : list Z) : Prop := {
  fp_text : Forall (fun c => c <> 0) (front_text l ++ blocks_text b) /\ front_text l ++ blocks_text b <> [] /\ hd0 (front_text l ++ blocks_text b) <> 239;
  fp_front : front_ok (fold_name case) (w_files w) search l;
  fp_counted : counted (fold_name case) (defined_name case defs) l = Some hs;
  fp_header : header_ok (fold_name case) (defined_name case defs) (instructions ez80) hs;
  fp_settings : Forall (setting_ok defs) os /\ distinct (fold_name case) (map fst os) = true;
  fp_values : values (w_wrap w) (fold_name case) [] [] (map setting os ++ hs) = Some ks;
  fp_sources : sources_ok (w_files w) srcs;
  fp_blocks : blocks_ok (P := ks) (fold_name case) (known_names case defs hs) false b;
  fp_chosen : chosen (P := ks) (Ca := macro_calls w search defs ez80 case hs ks srcs depth) (w_wrap w) ez80 (fold_name case) (known_names case defs hs) [] 0 b = Some (p, r);
  fp_lines : sections_ok (P := ks) (Ca := macro_calls w search defs ez80 case hs ks srcs depth) (w_wrap w) ez80 (fold_name case) (known_names case defs hs) (instructions ez80) [] 0 (sections p);
  fp_bytes : assemble (P := ks) (Ca := macro_calls w search defs ez80 case hs ks srcs depth) (w_wrap w) ez80 (fold_name case) (known_names case defs hs) p = Some bts }.

(** -Idir adds a directory to search. *)
Definition search_option (d : text) : text := zs "-I" ++ d.
Definition dir_ok (d : text) : Prop := d <> [] /\ Forall (fun c => c <> 59 /\ c <> 44) d.
Definition command_in (dirs : list text) (defs : list (text * text)) (ez80 case : bool) (input output : text) : list text :=
  map search_option dirs ++ command_with defs ez80 case input output.
Lemma split_one d : forall cur, Forall (fun c => c <> 59 /\ c <> 44) d -> rev cur ++ d <> [] -> split_dirs cur d = [rev cur ++ d].
Proof.
  induction d as [|c d IH]; intros cur F N; cbn [split_dirs].
  - rewrite app_nil_r in *. destruct cur; [now elim N|reflexivity].
  - inversion F as [|? ? (H1 & H2) F']; subst. replace (c =? 59) with false by lia. replace (c =? 44) with false by lia. cbn [orb]. rewrite IH; cbn [rev]; [now rewrite <- app_assoc|exact F'|].
    rewrite <- app_assoc. cbn [app]. now destruct (rev cur).
Qed.
Lemma read_search w more : forall ds dirs, Forall dir_ok ds ->
  read_args w (mkargs true false false false false false None None None dirs None) (map search_option ds ++ more) = read_args w (mkargs true false false false false false None None None (dirs ++ ds) None) more.
Proof.
  induction ds as [|d ds IH]; intros dirs F; [now rewrite app_nil_r|]. inversion F as [|? ? (N & Fd) F']; subst. cbn [map app].
  destruct d as [|c d]; [congruence|].
  change (read_args w (mkargs true false false false false false None None None (dirs ++ split_dirs [] (c :: d)) None) (map search_option ds ++ more) = read_args w (mkargs true false false false false false None None None (dirs ++ (c :: d) :: ds) None) more).
  rewrite (split_one (c :: d) [] Fd N). cbn [rev app]. rewrite IH by exact F'. now rewrite <- app_assoc.
Qed.

Lemma given_name defs n t : Forall option_ok defs -> given defs n = Some t -> eqbl n (zs "__LINE") = false /\ eqbl n (zs "__FILE") = false.
Proof.
  intros Od G. unfold given in G. destruct (find _ (rev defs ++ built_in)) as [(m, v)|] eqn:F; [|discriminate G]. apply find_some in F as (I & E). cbn [fst] in E. apply eqbl_eq in E. subst n.
  apply in_app_or in I as [I|I].
  - apply in_rev in I. rewrite Forall_forall in Od. destruct (Od _ I) as (_ & _ & Rn). cbn [fst] in Rn. unfold reserved_name, predefined in Rn. cbn [existsb] in Rn. repeat (apply Bool.orb_false_iff in Rn as (? & Rn)). auto.
  - unfold built_in in I. repeat (destruct I as [[= <- <-]|I]; [split; reflexivity|]). destruct I.
Qed.
Lemma setting_text e : Forall blank (w_before e) -> writes (w_expr e) (w_text e) -> skip_ws (wr e) <> [].
Proof.
  intros B W. unfold wr. rewrite skip_ws_app by exact B. destruct (DefineProofs.writes_first _ _ W) as (y & u & Ey & Ys). rewrite Ey. cbn [app]. rewrite skip_ws_nonblank; [discriminate|].
  unfold term_start, isalnum, isalpha, isdigit, isupper, islower in Ys. unfold blank. lia.
Qed.
(** * C68 *)
(** What stands in front of the lines counts through the definitions in it that are read and not left out. *)
Theorem c68_front : forall w dirs defs ez80 case fuel input output x stem os l hs ks srcs depth b p r bts,
  Forall dir_ok dirs -> Forall option_ok defs -> hd0 input <> 45 -> hd0 output <> 45 -> w_files w input = Some (front_text l ++ blocks_text b) -> plain_name output x stem ->
  front_program w (home (w_cwd w) input :: dirs) defs ez80 case os l hs ks srcs depth b p r bts -> zlen bts <= 8000000 -> (front_size l + length (blocks_text b) + sources_size srcs + 3 * depth + 50 <= fuel)%nat ->
  exists s, main fuel w (command_in dirs defs ez80 case input output) = Done 0 [(output, exported_bytes x bts)] (Some s) /\ s_printed s = [] /\
    forall n, option_map l_value (tfind (fold_name case n) (s_labels s)) = assoc (fold_name case) (fst r) n.
Proof.
  intros w dirs defs ez80 case fuel input output x stem os l hs ks srcs depth b p r bts Hd Od Hi Ho Hf Pl Mp Rm Fu. rewrite <- home_dir in Mp. destruct Mp as [(Z0 & Ne & Nb) Fo Ct Mo (Os & Dos) Vk Sr Bo Ch So As].
  destruct (read_command_in w dirs defs ez80 case input output Od Hi Ho) as (dd & Ra & Hn & Ht).
  set (a := mkargs true false false false ez80 case (Some input) (Some output) None dirs dd) in *. set (D := match dd with Some D => D | None => init_defines input end) in *. set (C := mkconf w a).
  pose proof (taken_names C D case defs eq_refl Hn) as Tn.
  set (tk := fun n => taken C D n || header_name (fold_name case) hs n).
  assert (Same : forall n, known_names case defs hs n = tk n) by (intros n; unfold tk, known_names; now rewrite Tn).
  pose proof (calls_same (w_wrap w) ez80 (fold_name case) (instructions ez80) (header_macros hs) ks (w_files w) (input_dir (w_cwd w) input :: dirs) srcs _ _ Same depth) as Al.
  fold (macro_calls w (input_dir (w_cwd w) input :: dirs) defs ez80 case hs ks srcs depth) in Al. set (Ca := macro_calls w (input_dir (w_cwd w) input :: dirs) defs ez80 case hs ks srcs depth) in *. set (Ca' := calls (w_wrap w) ez80 (fold_name case) tk (instructions ez80) (header_macros hs) ks (w_files w) (input_dir (w_cwd w) input :: dirs) srcs depth) in *.
  pose proof (Al ks) as A1.
  apply (proj1 (blocks_ok_same (Pm := ks) (fold_name case) _ _ Same)) in Bo.
  rewrite (proj1 (chosen_same (Pm := ks) (Ca := Ca) Ca' (w_wrap w) ez80 (fold_name case) _ _ Same A1)) in Ch.
  apply (sections_ok_same (Pm := ks) (Ca := Ca) Ca' (w_wrap w) ez80 (fold_name case) (instructions ez80) _ _ Same A1) in So.
  rewrite (assemble_same (Pm := ks) (Ca := Ca) Ca' (w_wrap w) ez80 (fold_name case) _ _ Same A1) in As.
  destruct (front_run C D dirs input output fuel depth (map setting os) l hs ks srcs b p r bts x stem) as (s & E & Of & Pr & Lb); auto.
  - exact (names_start D defs case Od Hn).
  - exact (proj2 Hn).
  - rewrite <- Ct. apply counted_same. intros n. now rewrite <- Tn.
  - destruct Mo as (Mo & Di). split; [|exact Di]. eapply Forall_impl; [|exact Mo]. intros q (Oq & Nq). split; [exact Oq|now rewrite <- Tn].
  - apply Forall_forall. intros i I. apply in_map_iff in I as ((n, e) & <- & I). rewrite Forall_forall in Os. destruct (Os _ I) as (Un & Gn & (B1 & W & B2 & _) & Pc). cbn [fst snd] in *.
    assert (Kn : key C n = n) by (unfold key; change (c_case C) with case; unfold fold_name in Un |- *; destruct case; [reflexivity|exact Un]).
    destruct (Ht n _ Gn) as (d & Fd & Da & Dc). eexists _, d. split; [reflexivity|]. cbn [v_name setting fst]. rewrite Kn.
    assert (Nn : eqbl n (zs "__LINE") = false /\ eqbl n (zs "__FILE") = false).
    { exact (given_name defs n _ Od Gn). }
    split; [exact (proj1 Nn)|]. split; [exact (proj2 Nn)|]. split; [exact Fd|]. split; [exact Da|]. exists (w_before e), (w_text e), (w_after e).
    split; [apply Dc; now apply setting_text|]. split; [exact B1|]. split; [exact W|]. split; [exact B2|]. apply Forall_forall. intros z Iz. rewrite forallb_forall in Pc. specialize (Pc z Iz). apply negb_true_iff in Pc. unfold DefineProofs.plain_char. unfold memb in Pc. cbn [existsb] in Pc. cbn. lia.
  - rewrite map_map. exact Dos.
  - exists s. split; [|split; [exact Pr|exact Lb]]. unfold main. assert (Nn : exists c u, command_in dirs defs ez80 case input output = c :: u) by (destruct dirs, defs, ez80, case; cbn; eauto). destruct Nn as (c & u & Nn). rewrite Nn. rewrite <- Nn. unfold command_in, args0. rewrite read_search by exact Hd. cbn [app]. rewrite Ra.
    change (match run_assembly C (knot C fuel) None output (init_state ez80 input dirs D) with
        | Ok c s => Done c (rev (s_outfiles s)) (Some s)
        | Exit c s => Done c (rev (s_outfiles s)) (Some s)
        | Undef u => Crash u
        | NoFuel => OutOfFuel
        end = Done 0 [(output, exported_bytes x bts)] (Some s)).
    change (run_assembly C (knot C fuel) None output (init_state ez80 input dirs D) = Ok 0 s) in E. rewrite E, Of. reflexivity.
Qed.

(** Definitions alone. *)
Definition front_of (hs : list item) : front := fold_right FItem FNil hs.
Lemma front_of_text hs : front_text (front_of hs) = header_text hs /\ front_size (front_of hs) = length (header_text hs).
Proof. induction hs as [|i hs (IH1 & IH2)]; [split; reflexivity|]. cbn [front_of fold_right front_text front_size header_text flat_map]. fold (front_of hs) (header_text hs). rewrite IH1, IH2, app_length. auto. Qed.
Lemma front_of_counted fold hs : forall d, counted fold d (front_of hs) = Some hs.
Proof. induction hs as [|i hs IH]; intros d; [reflexivity|]. cbn [front_of fold_right counted]. fold (front_of hs). unfold joined. rewrite IH. reflexivity. Qed.
Lemma front_of_ok fold file search hs : front_ok fold file search (front_of hs).
Proof. induction hs as [|i hs IH]; [exact I|exact IH]. Qed.
(** A file with definitions of macros and constants, lines and conditional blocks that use them and include
    files, and the files that are included. *)
Theorem c53_files_partial : forall w dirs defs ez80 case fuel input output x stem os hs ks srcs depth b p r bts,
  Forall dir_ok dirs -> Forall option_ok defs -> hd0 input <> 45 -> hd0 output <> 45 -> w_files w input = Some (header_text hs ++ blocks_text b) -> plain_name output x stem ->
  macro_program w (home (w_cwd w) input :: dirs) defs ez80 case os hs ks srcs depth b p r bts -> zlen bts <= 8000000 -> (length (header_text hs ++ blocks_text b) + sources_size srcs + 3 * depth + 50 <= fuel)%nat ->
  exists s, main fuel w (command_in dirs defs ez80 case input output) = Done 0 [(output, exported_bytes x bts)] (Some s) /\ s_printed s = [] /\
    forall n, option_map l_value (tfind (fold_name case n) (s_labels s)) = assoc (fold_name case) (fst r) n.
Proof.
  intros w dirs defs ez80 case fuel input output x stem os hs ks srcs depth b p r bts Hd Od Hi Ho Hf Pl Mp Rm Fu. destruct (front_of_text hs) as (Ft & Fs). rewrite app_length in Fu.
  apply (c68_front w dirs defs ez80 case fuel input output x stem os (front_of hs) hs ks srcs depth b p r bts); auto; [now rewrite Ft| |rewrite Fs; lia].
  destruct Mp as [Tx Mo St Vk Sr Bo Ch So As]. constructor; auto; [now rewrite Ft|apply front_of_ok|apply front_of_counted].
Qed.

(** Without files. *)
Theorem c51_macros_partial : forall w defs ez80 case fuel input output x stem os hs ks depth b p r bts,
  Forall option_ok defs -> hd0 input <> 45 -> hd0 output <> 45 -> w_files w input = Some (header_text hs ++ blocks_text b) -> plain_name output x stem ->
  macro_program w [home (w_cwd w) input] defs ez80 case os hs ks [] depth b p r bts -> zlen bts <= 8000000 -> (length (header_text hs ++ blocks_text b) + 3 * depth + 50 <= fuel)%nat ->
  exists s, main fuel w (command_with defs ez80 case input output) = Done 0 [(output, exported_bytes x bts)] (Some s) /\ s_printed s = [] /\
    forall n, option_map l_value (tfind (fold_name case n) (s_labels s)) = assoc (fold_name case) (fst r) n.
Proof. intros w defs ez80 case fuel input output x stem os hs ks depth b p r bts Od Hi Ho Hf Pl Mp Rm Fu. apply (c53_files_partial w [] defs ez80 case fuel input output x stem os hs ks [] depth b p r bts); auto. change (sources_size []) with 0%nat. lia. Qed.

(** ** A program with macros *)
Definition db2 (a b : text) (ea eb : expr) : line := ex_line (mksection None false sp (SData (zs "db") 1 sp [DNum (ex_at [] ea a []); DNum (ex_at [] eb b [])])) [] None.
Definition call_line (n : text) (l : list written) : line := ex_line (mksection None false sp (SCall (mkcall n (Some l) []))) [] None.
Definition ex_pair : macro := mkmacro [] (zs "macro") sp (zs "pair") [] (Some [mkparam [] (zs "a") []; mkparam sp (zs "b") []]) (mkending [] None false)
  (Line (db2 (zs "a") (zs "b") (ex_name (zs "a")) (ex_name (zs "b"))) Nil) (mkmark [] (zs "endmacro") no_comment).
Definition ex_twice : macro := mkmacro [] (zs "MACRO") sp (zs "Twice") [] (Some [mkparam [] (zs "n") []]) (mkending sp (Some (zs " both")) false)
  (Cond (mkhead [] (zs "if") sp (Expr (ex_at [] (ex_name (zs "n")) (zs "n") [])) no_comment)
     (Line (call_line (zs "pair") [ex_at [] (ex_name (zs "n")) (zs "n") []; ex_at sp (ex_num (zs "7")) (zs "7") []]) Nil)
     (Else (mkmark [] (zs "else") no_comment) (Line ex_ret Nil) (mkmark [] (zs "endif") no_comment))
     Nil) (mkmark [] (zs "endmacro") no_comment).
Definition ex_macros : list macro := [ex_pair; ex_twice].
Definition ex_header : list item := [IMacro ex_pair; IMacro ex_twice].
Definition ex_calls : blocks :=
  Line ex_equ (Line (call_line (zs "TWICE") [ex_at [] (ex_name (zs "size")) (zs "size") []])
  (Line (call_line (zs "twice") [ex_at [] (ex_num (zs "0")) (zs "0") []]) Nil)).
Example ex_macros_text : header_text ex_header ++ blocks_text ex_calls =
  zs "#macro pair(a, b)" ++ [10] ++ zs " .db a,b" ++ [10] ++ zs "#endmacro" ++ [10] ++
  zs "#MACRO Twice(n) ; both" ++ [10] ++ zs "#if n" ++ [10] ++ zs " pair(n, 7)" ++ [10] ++ zs "#else" ++ [10] ++ zs " ret" ++ [10] ++ zs "#endif" ++ [10] ++ zs "#endmacro" ++ [10] ++
  zs "size .equ 2" ++ [10] ++ zs " TWICE(size)" ++ [10] ++ zs " twice(0)" ++ [10].
Proof. reflexivity. Qed.
Definition ex_mprogram : list line := [ex_equ; call_line (zs "TWICE") [ex_at [] (ex_name (zs "size")) (zs "size") []]; call_line (zs "twice") [ex_at [] (ex_num (zs "0")) (zs "0") []]].
Notation ex_tk := (known_names false [] ex_header).
Notation ex_ca fs cw wr d := (calls wr false (fold_name false) ex_tk opcode_list ex_macros [] fs cw [] d).
Lemma ex_mname {P : Params} n : name_okb n = true -> zlen n <= 254 -> written_ok (ex_at [] (ex_name n) n []).
Proof. intros N L. split; [constructor|]. split; [apply w_name; now apply name_okb_ok|]. split; [constructor|]. split; [unfold nest_limit; destruct params; cbn; lia|]. change (zlen n + 0 <= 254). lia. Qed.
Lemma ex_mnum {P : Params} b n : Forall blank b -> n <> [] -> forallb isdigit n = true -> zlen n <= 254 -> written_ok (ex_at b (ex_num n) n []).
Proof.
  intros B N Dg L. split; [exact B|]. split; [apply w_num; [exact N|]|split; [constructor|split; [unfold nest_limit; destruct params; cbn; lia|change (zlen n + 0 <= 254); lia]]].
  rewrite forallb_forall in Dg. apply Forall_forall. intros c Hc. specialize (Dg c Hc). unfold isdigit in Dg. exists (c - 48). unfold digit_value. rewrite Dg. split; [reflexivity|lia].
Qed.
Lemma ex_head {P : Params} (tk : text -> bool) : tk (zs "n") = false -> head_ok (fold_name false) tk true (mkhead [] (zs "if") sp (Expr (ex_at [] (ex_name (zs "n")) (zs "n") [])) no_comment).
Proof.
  intros Tn. destruct ex_end as (N1 & N2 & N3). split; [constructor|]. split; [reflexivity|]. split; [exact ex_gap|]. split; [split; [apply ex_mname; [reflexivity|vm_compute; discriminate]|cbn [names_of term_names w_expr ex_at ex_name forallb]; unfold usable; now rewrite Tn]|].
  split; [unfold no_break; vm_compute; no_breaks|]. split; [exact N1|]. split; [exact I|reflexivity].
Qed.
Lemma ex_bare l : l_comment l = None -> line_ok l.
Proof. intros E. unfold line_ok. now rewrite E. Qed.
Lemma ex_twice_body {P : Params} (tk : text -> bool) i : tk (zs "n") = false -> blocks_ok (fold_name false) tk i (q_body ex_twice).
Proof.
  intros Tn.  destruct ex_end as (N1 & N2 & N3). cbn [blocks_ok alt_ok ex_twice q_body]. split; [now apply ex_head|]. split; [|split; [|exact I]].
  - split; [now apply ex_bare|]. split; [intros _; split; [unfold no_break; vm_compute; no_breaks|reflexivity]|exact I].
  - split; [split; [constructor|split; [reflexivity|auto]]|]. split; [|split; [constructor|split; [reflexivity|auto]]].
    split; [now apply ex_bare|]. split; [intros _; split; [unfold no_break; vm_compute; no_breaks|reflexivity]|exact I].
Qed.
Lemma ex_header_ok : header_ok (fold_name false) (defined_name false []) opcode_list ex_header.
Proof.
  destruct ex_end as (N1 & N2 & N3). assert (S1 : Forall blank sp) by exact ex_sp.
  split; [|vm_compute; reflexivity]. constructor; [|constructor; [|constructor]]; (split; [|vm_compute; reflexivity]).
  - split; [constructor|]. split; [reflexivity|]. split; [exact ex_gap|]. split; [now apply name_okb_ok|]. split; [reflexivity|]. split; [reflexivity|]. split; [vm_compute; intuition discriminate|]. split; [vm_compute; reflexivity|].
    split. { split; [constructor|]. split; [|split; [cbn; lia|vm_compute; reflexivity]].
      repeat (apply Forall_cons; [split; [first [exact S1|apply Forall_nil]|split; [now apply name_okb_ok|split; [constructor|vm_compute; discriminate]]]|]). constructor. }
    split; [split; [constructor|exact I]|]. split; [reflexivity|]. split; [|split; [vm_compute; reflexivity|split; [constructor|split; [reflexivity|auto]]]].
    split; [now apply ex_bare|]. split; [intros _; split; [unfold no_break; vm_compute; no_breaks|reflexivity]|exact I].
  - split; [constructor|]. split; [reflexivity|]. split; [exact ex_gap|]. split; [now apply name_okb_ok|]. split; [reflexivity|]. split; [reflexivity|]. split; [vm_compute; intuition discriminate|]. split; [vm_compute; reflexivity|].
    split. { split; [constructor|]. split; [|split; [cbn; lia|vm_compute; reflexivity]].
      repeat (apply Forall_cons; [split; [first [exact S1|apply Forall_nil]|split; [now apply name_okb_ok|split; [constructor|vm_compute; discriminate]]]|]). constructor. }
    split; [split; [exact S1|cbn; unfold no_break; no_breaks]|]. split; [reflexivity|]. split; [now apply ex_twice_body|split; [vm_compute; reflexivity|split; [constructor|split; [reflexivity|auto]]]].
Qed.
(** The statements. *)
Lemma m_step {P : Params} {Ca : Calls} wr now here x l now' here' : section_ok wr false (fold_name false) ex_tk opcode_list now here x -> after wr false (fold_name false) ex_tk now here x = Some (now', here') ->
  sections_ok wr false (fold_name false) ex_tk opcode_list now' here' l -> sections_ok wr false (fold_name false) ex_tk opcode_list now here (x :: l).
Proof. intros A B E. cbn [sections_ok]. rewrite B. auto. Qed.
Lemma m_ret {P : Params} {Ca : Calls} wr here now : stmt_ok wr false (fold_name false) ex_tk opcode_list here now (ex_ins (zs "ret") [] [] [] [] []).
Proof.
  unfold ex_ins. cbn [stmt_ok]. destruct (row_first (op_of (map toupper (zs "ret"))) []) as (R1 & R2); [reflexivity|].
  split; [apply op_in; reflexivity|]. split; [exact R1|]. split; [reflexivity|]. split; [now left|]. split; [constructor|]. split; [reflexivity|]. rewrite R2. split; [constructor|]. split; [constructor|]. split; [vm_compute; discriminate|].
  split; [split; reflexivity|]. split; [constructor|]. intros [].
Qed.
Lemma ex_pair_ok wr : step_ok wr false (fold_name false) ex_tk opcode_list ex_macros [] no_calls [(zs "n", 2)] [(zs "size", 2)] 0
  (mkcall (zs "pair") (Some [ex_at [] (ex_name (zs "n")) (zs "n") []; ex_at sp (ex_num (zs "7")) (zs "7") []]) []).
Proof.
  split; [now apply name_okb_ok|]. split; [reflexivity|]. split; [constructor|]. split; [reflexivity|]. split.
  { repeat (apply Forall_cons; [split; [split; [|reflexivity]|vm_compute; discriminate]|]); [| |constructor].
    - apply ex_mname; [reflexivity|vm_compute; discriminate].
    - apply ex_mnum; [exact ex_sp|discriminate|reflexivity|vm_compute; discriminate]. }
  assert (E : expansion wr (fold_name false) ex_macros [(zs "n", 2)] [(zs "size", 2)] 0 (mkcall (zs "pair") (Some [ex_at [] (ex_name (zs "n")) (zs "n") []; ex_at sp (ex_num (zs "7")) (zs "7") []]) []) =
    Some (ex_pair, [(zs "b", 7); (zs "a", 2); (zs "n", 2)])) by (destruct wr; vm_compute; reflexivity).
  rewrite E. split; [reflexivity|]. split; [reflexivity|].
  set (P' := [(zs "b", 7); (zs "a", 2); (zs "n", 2)] : Params).
  set (body := mkline (mksection None false (32 :: sp) (SData (zs "db") 1 sp [DNum (ex_at [] (ex_name (zs "a")) (zs "a") []); DNum (ex_at [] (ex_name (zs "b")) (zs "b") [])])) [] None false).
  assert (E2 : expanded wr false (fold_name false) ex_tk no_calls P' [(zs "size", 2)] 0 ex_pair = Some ([body], ([(zs "size", 2)], 2))) by (destruct wr; vm_compute; reflexivity).
  rewrite E2. split; [split; [exact I|split; [discriminate|exact I]]|].
  change (sections [body]) with [l_first body]. eapply (m_step (P := P') (Ca := no_calls)); [|destruct wr; vm_compute; reflexivity|exact I].
  split; [split; [constructor; [unfold blank; lia|exact ex_sp]|discriminate]|]. split; [exact I|]. split; [exact ex_gap|]. split; [discriminate|]. split; [|reflexivity].
  split; [apply ex_mname; [reflexivity|vm_compute; discriminate]|]. split; [split; destruct wr; vm_compute; reflexivity|].
  split; [apply ex_mname; [reflexivity|vm_compute; discriminate]|]. split; [split; destruct wr; vm_compute; reflexivity|exact I].
Qed.
Lemma ex_twice_ok fs cw wr n t v (now : table) here now' here' (l : list line) : known_ok (P := no_params) (fold_name false) ex_tk (ex_at [] n t []) -> nest n <= 14 -> val (P := no_params) wr (fold_name false) here now n = Some v -> within (-2147483647) v 2147483647 = true ->
  forall m, name_okb m = true -> eqbl (fold_name false m) (zs "TWICE") = true -> forallb (fun w => negb (starts m w)) functions = true ->
  expanded wr false (fold_name false) ex_tk (ex_ca fs cw wr 1) [(zs "n", v)] now here ex_twice = Some (l, (now', here')) ->
  sections_ok (P := [(zs "n", v)]) (Ca := ex_ca fs cw wr 1) wr false (fold_name false) ex_tk opcode_list now here (sections l) ->
  step_ok wr false (fold_name false) ex_tk opcode_list ex_macros [] (ex_ca fs cw wr 1) no_params now here (mkcall m (Some [ex_at [] n t []]) []).
Proof.
  intros Kn Nn V W m Om Em Fn Ee So. split; [now apply name_okb_ok|]. split; [reflexivity|]. split; [constructor|]. split; [intros _; exact Fn|]. split; [constructor; [split; [exact Kn|exact Nn]|constructor]|].
  assert (E : expansion wr (fold_name false) ex_macros no_params now here (mkcall m (Some [ex_at [] n t []]) []) = Some (ex_twice, [(zs "n", v)])).
  { unfold expansion, find_macro. cbn [find ex_macros y_name]. apply eqbl_eq in Em. rewrite Em. cbn [ex_pair ex_twice q_name]. change (eqbl (fold_name false (zs "pair")) (zs "TWICE")) with false. change (eqbl (fold_name false (zs "Twice")) (zs "TWICE")) with true. cbv iota.
    cbn [call_args y_args q_names q_params ex_twice map pa_name bind_args w_expr ex_at]. now rewrite V, W. }
  rewrite E. split; [reflexivity|]. split; [reflexivity|]. rewrite Ee. split; [|exact So].
  pose proof (ex_twice_body (P := [(zs "n", v)]) ex_tk false eq_refl) as B. cbn [ex_twice q_body spaced blocks_ok alt_ok h_indent h_word h_gap h_test h_end] in *. destruct B as (H & B). split; [|exact B].
  destruct H as (_ & H). split; [constructor; [unfold blank; lia|constructor]|exact H].
Qed.
Lemma ex_msections fs cw wr : sections_ok (Ca := ex_ca fs cw wr 2) wr false (fold_name false) ex_tk opcode_list [] 0 (sections ex_mprogram).
Proof.
  assert (S1 : Forall blank sp) by exact ex_sp.
  unfold ex_mprogram, sections. cbn [flat_map app l_first l_more ex_equ call_line ex_line].
  eapply (m_step (Ca := ex_ca fs cw wr 2)); [|destruct wr; vm_compute; reflexivity|].
  { split; [split; [exact S1|discriminate]|]. split; [now apply name_okb_ok|]. change (stmt_ok (Ca := ex_ca fs cw wr 2) wr false (fold_name false) ex_tk opcode_list 0 [(zs "size", 0)] (SEqu (zs "equ") sp (ex_at [] (ex_num (zs "2")) (zs "2") []))).
    split; [exact ex_gap|]. split; [reflexivity|]. apply ex_known2; try discriminate; reflexivity. }
  change (mksection None false sp (SCall (mkcall (zs "TWICE") (Some [ex_at [] (ex_name (zs "size")) (zs "size") []]) []))) with (l_first (call_line (zs "TWICE") [ex_at [] (ex_name (zs "size")) (zs "size") []])).
  eapply (m_step (Ca := ex_ca fs cw wr 2)); [|destruct wr; vm_compute; reflexivity|].
  { split; [split; [exact S1|discriminate]|]. split; [exact I|].
    change (step_ok wr false (fold_name false) ex_tk opcode_list ex_macros [] (ex_ca fs cw wr 1) no_params [(zs "size", 2)] 0 (mkcall (zs "TWICE") (Some [ex_at [] (ex_name (zs "size")) (zs "size") []]) [])).
    apply (ex_twice_ok fs cw wr (ex_name (zs "size")) (zs "size") 2 [(zs "size", 2)] 0 [(zs "size", 2)] 2 [call_line (zs "pair") [ex_at [] (ex_name (zs "n")) (zs "n") []; ex_at sp (ex_num (zs "7")) (zs "7") []]]); [| |vm_compute; reflexivity|reflexivity|reflexivity|reflexivity|reflexivity|destruct wr; vm_compute; reflexivity|].
    - split; [apply ex_mname; [reflexivity|vm_compute; discriminate]|reflexivity].
    - vm_compute; discriminate.
    - unfold sections. cbn [flat_map app l_first l_more call_line ex_line].
      eapply (m_step (P := [(zs "n", 2)]) (Ca := ex_ca fs cw wr 1)); [|destruct wr; vm_compute; reflexivity|exact I].
      split; [split; [exact S1|discriminate]|]. split; [exact I|]. exact (ex_pair_ok wr). }
  eapply (m_step (Ca := ex_ca fs cw wr 2)); [|destruct wr; vm_compute; reflexivity|exact I].
  split; [split; [exact S1|discriminate]|]. split; [exact I|].
  change (step_ok wr false (fold_name false) ex_tk opcode_list ex_macros [] (ex_ca fs cw wr 1) no_params [(zs "size", 2)] 2 (mkcall (zs "twice") (Some [ex_at [] (ex_num (zs "0")) (zs "0") []]) [])).
  apply (ex_twice_ok fs cw wr (ex_num (zs "0")) (zs "0") 0 [(zs "size", 2)] 2 [(zs "size", 2)] 3 [ex_ret]); [| |vm_compute; reflexivity|reflexivity|reflexivity|reflexivity|reflexivity|destruct wr; vm_compute; reflexivity|].
  - apply ex_known2; try discriminate; reflexivity.
  - vm_compute; discriminate.
  - unfold sections. cbn [flat_map app l_first l_more ex_ret ex_line].
    eapply (m_step (P := [(zs "n", 0)]) (Ca := ex_ca fs cw wr 1)); [|destruct wr; vm_compute; reflexivity|exact I].
    split; [split; [exact S1|discriminate]|]. split; [exact I|]. apply m_ret.
Qed.
Lemma ex_macro_program w : macro_program w [home (w_cwd w) (zs "in.asm")] [] false false [] ex_header [] [] 2 ex_calls ex_mprogram ([(zs "size", 2)], 3) [2; 7; 201].
Proof.
  constructor.
  - split; [|split; [vm_compute; discriminate|vm_compute; discriminate]].
    assert (E : forallb (fun c => negb (c =? 0)) (header_text ex_header ++ blocks_text ex_calls) = true) by (vm_compute; reflexivity). rewrite forallb_forall in E. apply Forall_forall. intros c Hc. specialize (E c Hc). cbv beta in E. lia.
  - exact ex_header_ok.
  - split; [constructor|reflexivity].
  - reflexivity.
  - constructor.
  - unfold ex_calls. cbn [blocks_ok]. repeat (split; [now apply ex_bare|split; [discriminate|]]). exact I.
  - unfold macro_calls. destruct (w_wrap w); vm_compute; reflexivity.
  - exact (ex_msections (w_files w) [home (w_cwd w) (zs "in.asm")] (w_wrap w)).
  - unfold macro_calls. destruct (w_wrap w); vm_compute; reflexivity.
Qed.
Example c51_example : forall w, w_files w (zs "in.asm") = Some (header_text ex_header ++ blocks_text ex_calls) ->
  exists s, main 400 w [zs "in.asm"; zs "out.bin"] = Done 0 [(zs "out.bin", [2; 7; 201])] (Some s) /\ s_printed s = [].
Proof.
  intros w Hf. destruct (c51_macros_partial w [] false false 400 (zs "in.asm") (zs "out.bin") ExBinary (zs "out") [] ex_header [] 2 ex_calls ex_mprogram ([(zs "size", 2)], 3) [2; 7; 201]) as (s & E & Pr & _).
  - constructor.
  - vm_compute; discriminate.
  - vm_compute; discriminate.
  - exact Hf.
  - right. exists (zs "bin"). split; [reflexivity|]. split; [discriminate|]. split; [vm_compute; intuition discriminate|]. split; [reflexivity|now left].
  - apply ex_macro_program.
  - vm_compute; discriminate.
  - vm_compute. lia.
  - exists s. split; [exact E|exact Pr].
Qed.
Print Assumptions c51_macros_partial.

(** * C52 *)
(** An argument is evaluated after the parameters before it have been set, and sees them: the
    argument a of m(1, a) is the first parameter of m, not the symbol of that name. *)
Definition ex_m : macro := mkmacro [] (zs "macro") sp (zs "m") [] (Some [mkparam [] (zs "a") []; mkparam sp (zs "b") []]) (mkending [] None false)
  (Line (db2 (zs "a") (zs "b") (ex_name (zs "a")) (ex_name (zs "b"))) Nil) (mkmark [] (zs "endmacro") no_comment).
Definition ex_captured : blocks :=
  Line (ex_line (mksection (Some (zs "a")) false sp (SEqu (zs "equ") sp (ex_at [] (ex_num (zs "5")) (zs "5") []))) [] None)
  (Line (call_line (zs "m") [ex_at [] (ex_num (zs "1")) (zs "1") []; ex_at sp (ex_name (zs "a")) (zs "a") []]) Nil).
Example ex_captured_text : header_text [IMacro ex_m] ++ blocks_text ex_captured =
  zs "#macro m(a, b)" ++ [10] ++ zs " .db a,b" ++ [10] ++ zs "#endmacro" ++ [10] ++ zs "a .equ 5" ++ [10] ++ zs " m(1, a)" ++ [10].
Proof. reflexivity. Qed.
Definition captured_world : world := mkworld (fun _ => Some (header_text [IMacro ex_m] ++ blocks_text ex_captured)) (fun _ => 0) [] (fun _ => []) true.
Theorem c52_capture_refuted :
  (exists s, main 100 captured_world [zs "in.asm"; zs "b.bin"] = Done 0 [(zs "b.bin", [1; 1])] (Some s) /\ s_printed s = []) /\
  (exists p r, chosen (Ca := macro_calls captured_world [] [] false false [IMacro ex_m] [] [] 1) true false (fold_name false) (known_names false [] [IMacro ex_m]) [] 0 ex_captured = Some (p, r) /\
     assemble (Ca := macro_calls captured_world [] [] false false [IMacro ex_m] [] [] 1) true false (fold_name false) (known_names false [] [IMacro ex_m]) p = Some [1; 5]).
Proof.
  split.
  - destruct (main 100 captured_world [zs "in.asm"; zs "b.bin"]) as [c f [s|]|u|] eqn:E; try (exfalso; vm_compute in E; discriminate).
    exists s. vm_compute in E. injection E as <- <- <-. split; reflexivity.
  - eexists _, _. split; [vm_compute; reflexivity|]. vm_compute. reflexivity.
Qed.
Print Assumptions c52_capture_refuted.
