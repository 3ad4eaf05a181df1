(** What a constant made with #define stands for in a program (C55, C56). *)
From Verif Require Import Base BaseProofs State MonadProofs StorageModel ErrorsModel ParserModel PreopModel PassOneModel OpcodeTables MainModel FuelProofs UtilsModel UtilsSpec UtilsProofs
  StorageSpec StorageProofs ParserSpec ParserProofs Knot ExportModel ExportSpec InstrSpec MatchSpec MatchProofs MatchProps AsmSpec AsmExpand AsmProofs AsmLine AsmRun AsmProps
  CondSpec CondSkip CondExt CondRun CondProps MacroSpec MacroRun MacroDefs MacroProps.
From Verif Require Programs Validate.
#[local] Existing Instance no_params.
#[local] Existing Instance no_frame.
#[local] Existing Instance no_consts.

(** * C55 *)
(** The text of a source file: no NUL character, not empty, no byte order mark. *)
Definition source_text (t : text) : Prop := Forall (fun c => c <> 0) t /\ t <> [] /\ hd0 t <> 239.
(** Two headers with the same macros whose constants have the same names and the same values. *)
Definition same_values (wraps : bool) (fold : text -> text) (os : list (text * written)) (hs hs' : list item) : Prop :=
  header_macros hs' = header_macros hs /\ (forall n, header_name fold hs' n = header_name fold hs n) /\
  values wraps fold [] [] (map setting os ++ hs') = values wraps fold [] [] (map setting os ++ hs).
Lemma swap_header w search defs ez80 case os hs hs' ks srcs depth b p r bts : same_values (w_wrap w) (fold_name case) os hs hs' ->
  header_ok (fold_name case) (defined_name case defs) (instructions ez80) hs' -> source_text (header_text hs' ++ blocks_text b) ->
  macro_program w search defs ez80 case os hs ks srcs depth b p r bts -> macro_program w search defs ez80 case os hs' ks srcs depth b p r bts.
Proof.
  intros (Em & En & Ev) Ho St [Tx Mo Os Vk Sr Bo Ch So As].
  assert (Same : forall n, known_names case defs hs n = known_names case defs hs' n) by (intros n; unfold known_names; now rewrite En).
  pose proof (calls_same (w_wrap w) ez80 (fold_name case) (instructions ez80) (header_macros hs) ks (w_files w) search srcs _ _ Same depth) as Al.
  assert (Al' : alike (macro_calls w search defs ez80 case hs ks srcs depth) (macro_calls w search defs ez80 case hs' ks srcs depth)) by (unfold macro_calls; rewrite Em; exact Al). clear Al.
  set (Ca := macro_calls w search defs ez80 case hs ks srcs depth) in *. set (Ca' := macro_calls w search defs ez80 case hs' ks srcs depth) in *.
  pose proof (Al' ks) as A1. constructor; auto.
  - now rewrite Ev.
  - now apply (proj1 (blocks_ok_same (Pm := ks) (fold_name case) _ _ Same)).
  - now rewrite (proj1 (chosen_same (Pm := ks) (Ca := Ca) Ca' (w_wrap w) ez80 (fold_name case) _ _ Same A1)) in Ch.
  - now apply (sections_ok_same (Pm := ks) (Ca := Ca) Ca' (w_wrap w) ez80 (fold_name case) (instructions ez80) _ _ Same A1) in So.
  - now rewrite (assemble_same (Pm := ks) (Ca := Ca) Ca' (w_wrap w) ez80 (fold_name case) _ _ Same A1) in As.
Qed.
(** A program whose constants are defined by other expressions with the same values assembles to
    the same bytes. *)
Theorem c55_same_values_partial : forall w dirs defs ez80 case fuel input other output x stem os hs hs' ks srcs depth b p r bts,
  Forall dir_ok dirs -> Forall option_ok defs -> hd0 input <> 45 -> hd0 other <> 45 -> hd0 output <> 45 -> home (w_cwd w) other = home (w_cwd w) input ->
  w_files w input = Some (header_text hs ++ blocks_text b) -> w_files w other = Some (header_text hs' ++ blocks_text b) -> plain_name output x stem ->
  same_values (w_wrap w) (fold_name case) os hs hs' -> header_ok (fold_name case) (defined_name case defs) (instructions ez80) hs' -> source_text (header_text hs' ++ blocks_text b) ->
  macro_program w (home (w_cwd w) input :: dirs) defs ez80 case os hs ks srcs depth b p r bts -> zlen bts <= 8000000 ->
  (length (header_text hs ++ blocks_text b) + sources_size srcs + 3 * depth + 50 <= fuel)%nat -> (length (header_text hs' ++ blocks_text b) + sources_size srcs + 3 * depth + 50 <= fuel)%nat ->
  exists s s', main fuel w (command_in dirs defs ez80 case input output) = Done 0 [(output, exported_bytes x bts)] (Some s) /\ s_printed s = [] /\
    main fuel w (command_in dirs defs ez80 case other output) = Done 0 [(output, exported_bytes x bts)] (Some s') /\ s_printed s' = [] /\
    forall n, option_map l_value (tfind (fold_name case n) (s_labels s)) = option_map l_value (tfind (fold_name case n) (s_labels s')).
Proof.
  intros w dirs defs ez80 case fuel input other output x stem os hs hs' ks srcs depth b p r bts Hd Od Hi Ht Ho Hm F1 F2 Pl Sv Hk St Mp Rm Fu Fu'.
  pose proof (swap_header _ _ _ _ _ _ _ _ _ _ _ _ _ _ _ Sv Hk St Mp) as Mp'. rewrite <- Hm in Mp'.
  destruct (c53_files_partial w dirs defs ez80 case fuel input output x stem os hs ks srcs depth b p r bts Hd Od Hi Ho F1 Pl Mp Rm Fu) as (s & E & Pr & Lb).
  destruct (c53_files_partial w dirs defs ez80 case fuel other output x stem os hs' ks srcs depth b p r bts Hd Od Ht Ho F2 Pl Mp' Rm Fu') as (s' & E' & Pr' & Lb').
  exists s, s'. repeat (split; [assumption|]). intros n. now rewrite Lb, Lb'.
Qed.
Print Assumptions c55_same_values_partial.

(** ** A program with constants *)
Definition ex_const (n : text) (v : option written) (c : option text) : item := IConst (mkconstant [] (zs "define") sp n v (mkending (match c with Some _ => sp | None => [] end) c false)).
Definition ex_sum : expr := Bin (ex_name (zs "SIZE")) Plus (Leaf NoSign (Num (Decimal (zs "1")))).
Definition ex_double : expr := Bin (ex_num (zs "2")) Times (Leaf NoSign (Name (zs "next"))).
Definition ex_settings : list (text * written) := [(zs "SIZE", ex_at [] (ex_num (zs "2")) (zs "2") [])].
Definition ex_cdefs : list (text * text) := [(zs "Size", zs "2")].
Definition ex_consts : list item :=
  [ex_const (zs "next") (Some (ex_at sp ex_sum (zs "SIZE+1") [])) (Some (zs " three")); ex_const (zs "flag") None None].
Definition ex_consts' : list item :=
  [ex_const (zs "next") (Some (ex_at sp (ex_num (zs "3")) (zs "3") [])) None; ex_const (zs "flag") (Some (ex_at sp (ex_num (zs "1")) (zs "1") [])) None].

Definition ex_cline : line := db2 (zs "2*next") (zs "size") ex_double (ex_name (zs "size")).
Definition ex_cblocks : blocks :=
  Cond (mkhead [] (zs "ifdef") sp (Defined (zs "flag")) no_comment) (Line ex_cline Nil) (End (mkmark [] (zs "endif") no_comment)) (Line ex_ret Nil).
Example ex_consts_text :
  header_text ex_consts ++ blocks_text ex_cblocks =
    zs "#define next SIZE+1 ; three" ++ [10] ++ zs "#define flag" ++ [10] ++ zs "#ifdef flag" ++ [10] ++ zs " .db 2*next,size" ++ [10] ++ zs "#endif" ++ [10] ++ zs " ret" ++ [10] /\
  header_text ex_consts' = zs "#define next 3" ++ [10] ++ zs "#define flag 1" ++ [10].
Proof. split; reflexivity. Qed.
Definition ex_ks : Params := [(zs "flag", 1); (zs "next", 3); (zs "SIZE", 2)].
Example ex_values wr : values wr (fold_name false) [] [] (map setting ex_settings ++ ex_consts) = Some ex_ks /\ values wr (fold_name false) [] [] (map setting ex_settings ++ ex_consts') = Some ex_ks.
Proof. destruct wr; split; vm_compute; reflexivity. Qed.
Notation ex_ctk := (known_names false ex_cdefs ex_consts).
Notation ex_cca wr fs cw := (calls wr false (fold_name false) ex_ctk opcode_list [] ex_ks fs cw [] 0).
Lemma c_ret {P : Params} {Ca : Calls} wr tk here now : stmt_ok wr false (fold_name false) tk opcode_list here now (ex_ins (zs "ret") [] [] [] [] []).
Proof.
  unfold ex_ins. cbn [stmt_ok]. destruct (row_first (op_of (map toupper (zs "ret"))) []) as (R1 & R2); [reflexivity|].
  split; [apply op_in; reflexivity|]. split; [exact R1|]. split; [reflexivity|]. split; [now left|]. split; [constructor|]. split; [reflexivity|]. rewrite R2. split; [constructor|]. split; [constructor|]. split; [vm_compute; discriminate|].
  split; [split; reflexivity|]. split; [constructor|]. intros [].
Qed.
Lemma c_step {P : Params} {Ca : Calls} wr tk now here x l now' here' : section_ok wr false (fold_name false) tk opcode_list now here x -> after wr false (fold_name false) tk now here x = Some (now', here') ->
  sections_ok wr false (fold_name false) tk opcode_list now' here' l -> sections_ok wr false (fold_name false) tk opcode_list now here (x :: l).
Proof. intros A B E. cbn [sections_ok]. rewrite B. auto. Qed.
Lemma ex_wbin {P : Params} b e n o d t : Forall blank b -> writes e n -> writes_term d t -> o <> NotEqual -> nest e = 0 -> nest_term d = 0 -> zlen (n ++ spelling o ++ t) <= 254 ->
  written_ok (ex_at b (Bin e o d) (n ++ spelling o ++ t) []).
Proof.
  intros B W1 W2 No Ne Nd L. split; [exact B|]. split; [|split; [constructor|split]].
  - change (w_text (ex_at b (Bin e o d) (n ++ spelling o ++ t) [])) with (n ++ [] ++ spelling o ++ [] ++ t). apply W_bin; auto; contradiction.
  - change (Z.max (nest e) (nest_term d) <= nest_limit). rewrite Ne, Nd. unfold nest_limit. destruct params; cbn; lia.
  - change (zlen (n ++ spelling o ++ t) + 0 <= 254). lia.
Qed.
Lemma ex_w1 {P : Params} : written_ok (ex_at sp ex_sum (zs "SIZE+1") []).
Proof.
  change (zs "SIZE+1") with (zs "SIZE" ++ spelling Plus ++ zs "1"). apply ex_wbin; [exact ex_sp| | |discriminate|reflexivity|reflexivity|vm_compute; discriminate].
  - apply w_name. now apply name_okb_ok.
  - apply (W_leaf NoSign [] (Num (Decimal (zs "1")))); [|constructor|reflexivity]. split; [discriminate|]. split; [|exact I]. constructor; [exists 1; split; reflexivity|constructor].
Qed.
Lemma ex_w2 {P : Params} : written_ok (ex_at [] ex_double (zs "2*next") []).
Proof.
  change (zs "2*next") with (zs "2" ++ spelling Times ++ zs "next"). apply ex_wbin; [constructor| | |discriminate|reflexivity|reflexivity|vm_compute; discriminate].
  - apply w_num; [discriminate|]. constructor; [exists 2; split; reflexivity|constructor].
  - apply (W_leaf NoSign [] (Name (zs "next"))); [now apply name_okb_ok|constructor|reflexivity].
Qed.
Lemma ex_const_ok n v c : name_okb n = true -> eqbl (fold_name false n) (zs "__LINE") = false -> eqbl (fold_name false n) (zs "__FILE") = false ->
  match v with
  | Some w => gap_ok (w_before w) /\ written_ok (P := no_params) w /\ forallb (fun x => negb (memb x [10; 13; 34; 39; 59; 92])) (w_text w) = true /\
      starts (zs "eval") (w_text w) = false /\ starts (zs "concat") (w_text w) = false /\ zlen (w_text w) + zlen (w_after w) + zlen (match c with Some _ => sp | None => [] end) <= 254
  | None => True
  end -> match c with Some t => no_break t | None => True end -> item_ok (fold_name false) opcode_list (ex_const n v c).
Proof.
  intros N L F V K. split; [constructor|]. split; [reflexivity|]. split; [exact ex_gap|]. split; [now apply name_okb_ok|]. split; [exact L|]. split; [exact F|]. split; [exact V|].
  split; [destruct c; [exact ex_sp|constructor]|]. destruct c; exact K.
Qed.
Lemma ex_const_num n c d : name_okb n = true -> eqbl (fold_name false n) (zs "__LINE") = false -> eqbl (fold_name false n) (zs "__FILE") = false -> isdigit d = true -> match c with Some t => no_break t | None => True end ->
  item_ok (fold_name false) opcode_list (ex_const n (Some (ex_at sp (ex_num [d]) [d] [])) c).
Proof.
  intros N L F D K. apply ex_const_ok; auto. split; [exact ex_gap|].
  assert (Dd : 48 <= d <= 57) by (unfold isdigit in D; lia).
  split; [apply ex_mnum; [exact ex_sp|discriminate|cbn; now rewrite D|cbn; lia]|]. cbn [w_text w_after ex_at]. split; [cbn; lia|].
  split; [unfold starts; cbn; destruct (tolower d); cbn; lia|]. split; [cbn; lia|destruct c; cbn; lia].
Qed.
Lemma ex_consts_ok : header_ok (fold_name false) (defined_name false ex_cdefs) opcode_list ex_consts /\ header_ok (fold_name false) (defined_name false ex_cdefs) opcode_list ex_consts'.
Proof.
  split; (split; [|vm_compute; reflexivity]); repeat (apply Forall_cons; [split; [|vm_compute; reflexivity]|]); try apply Forall_nil.
  - apply ex_const_ok; try reflexivity; [|unfold no_break; vm_compute; no_breaks]. split; [exact ex_gap|]. split; [exact ex_w1|]. repeat (split; [reflexivity|]). vm_compute; discriminate.
  - apply ex_const_ok; reflexivity || exact I.
  - apply ex_const_num; reflexivity || exact I.
  - apply ex_const_num; reflexivity || exact I.
Qed.
Lemma ex_same wr : same_values wr (fold_name false) ex_settings ex_consts ex_consts'.
Proof. split; [reflexivity|]. split; [reflexivity|]. now rewrite (proj1 (ex_values wr)), (proj2 (ex_values wr)). Qed.
Lemma ex_csections wr fs cw : sections_ok (P := ex_ks) (Ca := ex_cca wr fs cw) wr false (fold_name false) ex_ctk opcode_list [] 0 (sections [ex_cline; ex_ret]).
Proof.
  unfold sections. cbn [flat_map app l_first l_more ex_cline db2 ex_ret ex_line].
  eapply (c_step (P := ex_ks) (Ca := ex_cca wr fs cw)); [|destruct wr; vm_compute; reflexivity|].
  { split; [split; [exact ex_sp|discriminate]|]. split; [exact I|]. split; [exact ex_gap|]. split; [discriminate|]. split; [|reflexivity].
    split; [exact ex_w2|]. split; [split; destruct wr; vm_compute; reflexivity|].
    split; [apply ex_mname; [reflexivity|vm_compute; discriminate]|]. split; [split; destruct wr; vm_compute; reflexivity|exact I]. }
  eapply (c_step (P := ex_ks) (Ca := ex_cca wr fs cw)); [|destruct wr; vm_compute; reflexivity|exact I].
  split; [split; [exact ex_sp|discriminate]|]. split; [exact I|]. apply c_ret.
Qed.
Lemma ex_no_nul t : forallb (fun c => negb (c =? 0)) t = true -> Forall (fun c => c <> 0) t.
Proof. intros E. rewrite forallb_forall in E. apply Forall_forall. intros c Hc. specialize (E c Hc). cbv beta in E. lia. Qed.
Lemma ex_const_program w search : macro_program w search ex_cdefs false false ex_settings ex_consts ex_ks [] 0 ex_cblocks [ex_cline; ex_ret] ([], 3) [6; 2; 201].
Proof.
  constructor.
  - split; [apply ex_no_nul; vm_compute; reflexivity|split; vm_compute; discriminate].
  - exact (proj1 ex_consts_ok).
  - split; [|reflexivity]. constructor; [|constructor]. split; [reflexivity|]. split; [reflexivity|]. split; [|reflexivity]. apply ex_mnum; [constructor|discriminate|reflexivity|vm_compute; discriminate].
  - exact (proj1 (ex_values (w_wrap w))).
  - constructor.
  - destruct ex_end as (N1 & N2 & N3). cbn [ex_cblocks blocks_ok alt_ok]. split; [|split; [|split; [|split; [now apply ex_bare|split; [discriminate|exact I]]]]].
    + split; [constructor|]. split; [reflexivity|]. split; [exact ex_gap|]. split; [split; [now apply name_okb_ok|split; reflexivity]|]. split; [unfold no_break; vm_compute; no_breaks|]. split; [exact N1|]. split; [exact I|reflexivity].
    + split; [now apply ex_bare|]. split; [intros _; split; [unfold no_break; vm_compute; no_breaks|reflexivity]|exact I].
    + split; [constructor|split; [reflexivity|auto]].
  - unfold macro_calls. destruct (w_wrap w); vm_compute; reflexivity.
  - exact (ex_csections (w_wrap w) (w_files w) search).
  - unfold macro_calls. destruct (w_wrap w); vm_compute; reflexivity.
Qed.
Example c55_example : forall w, w_files w (zs "in.asm") = Some (header_text ex_consts ++ blocks_text ex_cblocks) -> w_files w (zs "numbers.asm") = Some (header_text ex_consts' ++ blocks_text ex_cblocks) ->
  exists s s', main 400 w [zs "-DSize=2"; zs "in.asm"; zs "out.bin"] = Done 0 [(zs "out.bin", [6; 2; 201])] (Some s) /\ s_printed s = [] /\
    main 400 w [zs "-DSize=2"; zs "numbers.asm"; zs "out.bin"] = Done 0 [(zs "out.bin", [6; 2; 201])] (Some s') /\ s_printed s' = [].
Proof.
  intros w F1 F2. destruct (c55_same_values_partial w [] ex_cdefs false false 400 (zs "in.asm") (zs "numbers.asm") (zs "out.bin") ExBinary (zs "out") ex_settings ex_consts ex_consts' ex_ks [] 0 ex_cblocks [ex_cline; ex_ret] ([], 3) [6; 2; 201])
    as (s & s' & E & Pr & E' & Pr' & _).
  - constructor.
  - constructor; [|constructor]. split; [now apply name_okb_ok|split; [vm_compute; discriminate|reflexivity]].
  - vm_compute; discriminate.
  - vm_compute; discriminate.
  - vm_compute; discriminate.
  - reflexivity.
  - exact F1.
  - exact F2.
  - right. exists (zs "bin"). split; [reflexivity|]. split; [discriminate|]. split; [vm_compute; intuition discriminate|]. split; [reflexivity|now left].
  - exact (ex_same (w_wrap w)).
  - exact (proj2 ex_consts_ok).
  - split; [apply ex_no_nul; vm_compute; reflexivity|split; vm_compute; discriminate].
  - apply ex_const_program.
  - vm_compute; discriminate.
  - vm_compute. lia.
  - vm_compute. lia.
  - exists s, s'. split; [exact E|split; [exact Pr|split; [exact E'|exact Pr']]].
Qed.

(** * C56 *)
(** In an expression that has to wait for a label, the text of a constant stands in its place
    instead of its value: with #define five 2+3, the line .db 2*five+lab is 2*2+3+lab when lab is
    defined further down and 2*5+lab when it is defined above. *)
Definition waiting (lab_first : bool) : list Z :=
  zs "#define five 2+3" ++ [10] ++ (if lab_first then zs "lab .equ 1" ++ [10] else []) ++ zs " .db 2*five+lab" ++ [10] ++ (if lab_first then [] else zs "lab .equ 1" ++ [10]).
Definition waiting_world (b : bool) : world := mkworld (fun _ => Some (waiting b)) (fun _ => 0) [] (fun _ => []) true.
Theorem c56_waiting_refuted :
  (exists s, main 100 (waiting_world true) [zs "in.asm"; zs "b.bin"] = Done 0 [(zs "b.bin", [11])] (Some s) /\ s_printed s = []) /\
  (exists s, main 100 (waiting_world false) [zs "in.asm"; zs "b.bin"] = Done 0 [(zs "b.bin", [8])] (Some s) /\ s_printed s = []).
Proof.
  split.
  - destruct (main 100 (waiting_world true) [zs "in.asm"; zs "b.bin"]) as [c f [s|]|u|] eqn:E; try (exfalso; vm_compute in E; discriminate).
    exists s. vm_compute in E. injection E as <- <- <-. split; reflexivity.
  - destruct (main 100 (waiting_world false) [zs "in.asm"; zs "b.bin"]) as [c f [s|]|u|] eqn:E; try (exfalso; vm_compute in E; discriminate).
    exists s. vm_compute in E. injection E as <- <- <-. split; reflexivity.
Qed.
Print Assumptions c56_waiting_refuted.
