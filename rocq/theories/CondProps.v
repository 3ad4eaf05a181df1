(** Conditional blocks (C32, C33). *)
From Verif Require Import Base BaseProofs State MonadProofs StorageModel ErrorsModel ParserModel PreopModel PassOneModel OpcodeTables MainModel FuelProofs UtilsModel UtilsSpec UtilsProofs
  StorageSpec StorageProofs ParserSpec ParserProofs Knot ExportModel ExportSpec InstrSpec MatchSpec MatchProofs MatchProps AsmSpec AsmExpand AsmProofs AsmLine AsmRun AsmProps
  CondSpec CondSkip CondExt CondRun.
#[local] Existing Instance no_params.
#[local] Existing Instance no_calls.
#[local] Existing Instance no_frame.
#[local] Existing Instance no_consts.

(** ** Options *)

(** What stands for a name, in upper case: the last value given, else the value it always has. *)
Definition built_in : list (text * text) := [(zs "TRUE", zs "1"); (zs "FALSE", zs "0"); (zs "SPASM", zs "1"); (zs "SPASMVER", zs "2")].
Definition given (defs : list (text * text)) (n : text) : option text :=
  option_map snd (find (fun d => eqbl (fold_name false (fst d)) n) (rev defs ++ built_in)).

(** -DNAME=VALUE defines a name, in upper case. *)
Definition set_option (d : text * text) : text := zs "-D" ++ fst d ++ 61 :: snd d.
Definition option_ok (d : text * text) : Prop := name_ok (fst d) /\ zlen (fst d) <= 254 /\ reserved_name false (fst d) = false.
Definition defined_name (case : bool) (defs : list (text * text)) (n : text) : bool :=
  existsb (eqbl (fold_name case n)) (predefined ++ map (fun d => fold_name false (fst d)) defs).
Definition command_with (defs : list (text * text)) (ez80 case : bool) (input output : text) : list text :=
  map set_option defs ++ command ez80 case input output.

Definition holds_names (D : list (text * define)) (l : list text) : Prop :=
  (forall k, isSome (tfind k D) = existsb (eqbl k) l) /\ (forall k d, tfind k D = Some d -> d_contents d <> None).
(** The table has the texts given. *)
Definition holds_texts (D : list (text * define)) (l : list (text * text)) : Prop :=
  forall k t, option_map snd (find (fun d => eqbl (fold_name false (fst d)) k) l) = Some t ->
  exists d, tfind k D = Some d /\ d_args d = [] /\ (skip_ws t <> [] -> d_contents d = Some t).
Lemma init_texts file : holds_texts (init_defines file) built_in.
Proof.
  intros k t H. unfold built_in in H. cbn [find fst] in H.
  repeat match type of H with
  | context [eqbl ?n k] => destruct (eqbl n k) eqn:E; [apply eqbl_eq in E; subst k; injection H as <-; eexists; split; [reflexivity|]; split; [reflexivity|intros _; reflexivity]|clear E]
  end. discriminate H.
Qed.
Lemma init_names file : holds_names (init_defines file) predefined.
Proof.
  split.
  - intros k. unfold init_defines. change predefined with (map fst (init_defines file)). unfold init_defines. match goal with |- context [tfind k ?t] => generalize t end. intros t.
    induction t as [|(a, d) t IH]; [reflexivity|]. cbn [tfind map fst existsb]. destruct (eqbl k a); [reflexivity|exact IH].
  - intros k d. unfold init_defines. intros H.
    assert (F : Forall (fun e => d_contents (snd e) <> None) (init_defines file)) by (unfold init_defines; repeat (apply Forall_cons; [discriminate|]); constructor).
    unfold init_defines in F. revert H F. match goal with |- tfind k ?t = _ -> _ => generalize t end. intros t H F. induction F as [|(a, e) t He F IH]; [discriminate|]. cbn [tfind] in H. destruct (eqbl k a); [injection H as <-; exact He|auto].
Qed.
Lemma read_name n v : name_ok n -> zlen n <= 254 -> read_expr_gen true (n ++ 61 :: v) [61] = mkrx true (61 :: v) n false.
Proof.
  intros (_ & (c & t & E & Nc) & F) L.
  assert (Pt : pieces_text (map PChar n) = n) by (unfold pieces_text; clear; induction n as [|x n IH]; [reflexivity|cbn; now rewrite IH]).
  assert (Ch : forall x, ParserSpec.name_char x -> ~ bracket x /\ ~ In x [61] /\ ~ line_ender x /\ ~ blank x).
  { intros x. unfold ParserSpec.name_char, ParserSpec.letter_or_digit, bracket, line_ender, blank. simpl. lia. }
  pose proof (read_operand_gen [61] (mkoperand [] (map PChar n) []) (61 :: v)) as R. unfold operand_text in R. cbn [o_before o_body o_after app] in R. rewrite Pt in R. apply R.
  - simpl. lia.
  - now left.
  - unfold operand_okd, operand_text. cbn [o_before o_body o_after]. rewrite Pt. repeat split; try constructor.
    + apply Forall_forall. intros p I. apply in_map_iff in I as (x & <- & I). rewrite Forall_forall in F. destruct (Ch x (F x I)) as (A1 & A2 & A3 & _). constructor; auto.
    + exists c, t. split; [exact E|]. unfold name_start in Nc. unfold blank. lia.
    + assert (N : n <> []) by (rewrite E; discriminate). destruct (exists_last N) as (u & x & Eu). exists x, u. split; [exact Eu|]. rewrite Eu in F. apply Forall_app in F as (_ & F). inversion F as [|? ? Fx _]; subst. destruct (Ch x Fx) as (_ & _ & A3 & A4). unfold line_ender in A3. repeat split; auto; lia.
    + change (zlen []) with 0. lia.
  - left. right. exists 61, v. simpl. auto.
Qed.
Lemma existsb_snoc k l x : existsb (eqbl k) (l ++ [x]) = existsb (eqbl k) l || eqbl k x.
Proof. rewrite existsb_app. cbn. now rewrite Bool.orb_false_r. Qed.
Lemma fold_idem n : fold_name false (fold_name false n) = fold_name false n.
Proof. unfold fold_name. rewrite map_map. apply map_ext. intros c. unfold fold_case. destruct ((97 <=? c) && (c <=? 122)) eqn:E; [|now rewrite E]. replace ((97 <=? c - 32) && (c - 32 <=? 122)) with false by lia. reflexivity. Qed.
Lemma arg_define_ok w a d l lt : option_ok d -> holds_names (match a_defs a with Some D => D | None => init_defines (curr_file a) end) l -> holds_texts (match a_defs a with Some D => D | None => init_defines (curr_file a) end) lt ->
  exists D, arg_define w a (fst d ++ 61 :: snd d) = AGo (mkargs (a_normal a) (a_list a) (a_counter a) (a_symtable a) (a_ez80 a) (a_case a)
                      (a_input a) (a_output a) (a_line a) (a_dirs a) (Some D)) /\ holds_names D (l ++ [fold_name false (fst d)]) /\ holds_texts D (d :: lt).
Proof.
  destruct d as (n, v). cbn [fst snd]. intros (Nn & Ln & Rn) H Ht. unfold arg_define. cbn [fst snd] in *.
  set (D0 := match a_defs a with Some D => D | None => init_defines (curr_file a) end) in *. set (C := mkcfg _ _ _ _ _ _ _ _ _ _ _).
  set (s0 := init_state false (curr_file a) [] D0).
  set (k := fold_name false n) in *.
  assert (Kk : key C n = k) by reflexivity. assert (Kk2 : key C k = k) by exact (fold_idem n).
  assert (Nl : eqbl k (zs "__LINE") = false /\ eqbl k (zs "__FILE") = false).
  { unfold reserved_name in Rn. fold k in Rn. unfold predefined in Rn. cbn [existsb] in Rn. repeat (apply Bool.orb_false_iff in Rn as (? & Rn)). auto. }
  assert (R : read_expr (n ++ 61 :: v) (zs "=") s0 = Ok (mkrx true (61 :: v) n false) s0).
  { unfold read_expr, read_expr'. change (zs "=") with [61]. rewrite read_name by assumption. reflexivity. }
  rewrite (bind_ok _ _ _ _ _ R). cbn [rx_word rx_ptr].
  assert (Ad : exists b D1 d1, add_define C n true s0 = Ok (Some (RG k, b)) (set_defines D1 s0) /\ tfind k D1 = Some d1 /\ d_args d1 = [] /\ (forall k2, k2 <> k -> tfind k2 D1 = tfind k2 D0)).
  { unfold add_define. destruct Nn as (_ & (c & t & E & _) & _). rewrite (next_split n) by (rewrite E; discriminate). cbv zeta. rewrite Kk.
    assert (Sl : search_labels C k s0 = Ok None s0) by reflexivity. rewrite (bind_ok _ _ _ _ _ Sl).
    assert (Sd : search_defines C k true s0 = Ok (match tfind k D0 with Some _ => Some (RG k) | None => None end) s0).
    { unfold search_defines. rewrite !bind_get. rewrite Kk2, (proj1 Nl), (proj2 Nl). reflexivity. }
    rewrite (bind_ok _ _ _ _ _ Sd). destruct (tfind k D0) as [d0|] eqn:Q.
    - exists true. eexists _, _. split; [unfold bind, get_define, put_define; cbn [lookup_ref]; change (s_defines s0) with D0; rewrite Q; cbv beta iota; change (s_defines s0) with D0; rewrite Q; reflexivity|].
      split; [apply tfind_tset_same|]. split; [reflexivity|]. intros k2 N. now apply tfind_tset_other.
    - exists false. eexists _, _. split; [reflexivity|]. split; [apply tfind_tset_same|]. split; [reflexivity|]. intros k2 N. now apply tfind_tset_other. }
  destruct Ad as (b & D1 & d1 & Ad & Fd & Fa & Ot). rewrite (bind_ok _ _ _ _ _ Ad). cbv beta match.
  unfold set_contents, bind, get_define, put_define. cbn [lookup_ref]. change (s_defines (set_defines D1 s0)) with D1. rewrite Fd. cbv beta iota. change (s_defines (set_defines D1 s0)) with D1. rewrite Fd.
  eexists. split; [reflexivity|]. cbn [s_defines set_defines]. split; [split|].
  - intros k2. rewrite tfind_tset, existsb_snoc. destruct (eqbl k2 k) eqn:Q; [now rewrite Bool.orb_true_r|]. rewrite Bool.orb_false_r. rewrite Ot by (now apply eqbl_neq). apply (proj1 H).
  - intros k2 d2. rewrite tfind_tset. destruct (eqbl k2 k) eqn:Q; [intros [= <-]; discriminate|]. rewrite Ot by (now apply eqbl_neq). apply (proj2 H).
  - intros k2 t2. cbn [find fst]. fold k. rewrite tfind_tset. destruct (eqbl k k2) eqn:Q.
    + apply eqbl_eq in Q. subst k2. rewrite eqbl_refl. intros [= <-]. eexists. split; [reflexivity|]. split; [exact Fa|]. cbn [snd]. intros Ns. cbn [d_contents]. destruct (skip_ws v); [contradiction|reflexivity].
    + assert (Q' : eqbl k2 k = false) by (apply eqbl_neq; intros ->; rewrite eqbl_refl in Q; discriminate Q). rewrite Q'. rewrite Ot by (now apply eqbl_neq). apply Ht.
Qed.

Lemma read_rest w ez80 case input output dirs dd : hd0 input <> 45 -> hd0 output <> 45 ->
  read_args w (mkargs true false false false false false None None None dirs dd) (command ez80 case input output) = AGo (mkargs true false false false ez80 case (Some input) (Some output) None dirs dd).
Proof.
  intros Hi Ho. assert (Ei : hd0 input =? 45 = false) by lia. assert (Eo : hd0 output =? 45 = false) by lia.
  assert (Base : forall a, a_input a = None -> a_output a = None -> read_args w a [input; output] =
     AGo (mkargs (a_normal a) (a_list a) (a_counter a) (a_symtable a) (a_ez80 a) (a_case a) (Some input) (Some output) (a_line a) (a_dirs a) (a_defs a))).
  { intros a Ia Oa. cbn [read_args]. rewrite Ei, Eo, Ia. cbn. now rewrite Oa. }
  unfold command. destruct ez80, case; cbn [app].
  - change (read_args w (mkargs true false false false true true None None None dirs dd) [input; output] = AGo (mkargs true false false false true true (Some input) (Some output) None dirs dd)). now rewrite Base.
  - change (read_args w (mkargs true false false false true false None None None dirs dd) [input; output] = AGo (mkargs true false false false true false (Some input) (Some output) None dirs dd)). now rewrite Base.
  - change (read_args w (mkargs true false false false false true None None None dirs dd) [input; output] = AGo (mkargs true false false false false true (Some input) (Some output) None dirs dd)). now rewrite Base.
  - now rewrite Base.
Qed.
Lemma read_option w a d l lt more : option_ok d -> holds_names (match a_defs a with Some D => D | None => init_defines (curr_file a) end) l -> holds_texts (match a_defs a with Some D => D | None => init_defines (curr_file a) end) lt ->
  exists D, read_args w a (set_option d :: more) = read_args w (mkargs (a_normal a) (a_list a) (a_counter a) (a_symtable a) (a_ez80 a) (a_case a)
                      (a_input a) (a_output a) (a_line a) (a_dirs a) (Some D)) more /\ holds_names D (l ++ [fold_name false (fst d)]) /\ holds_texts D (d :: lt).
Proof.
  intros O H Ht. destruct (arg_define_ok w a d l lt O H Ht) as (D & E & Hd). exists D. split; [|exact Hd].
  assert (N : exists c t, fst d ++ 61 :: snd d = c :: t) by (destruct (fst d); cbn; eauto). destruct N as (c & t & N). unfold set_option. rewrite N in *.
  change (match arg_define w a (c :: t) with AGo a => read_args w a more | r => r end = read_args w (mkargs (a_normal a) (a_list a) (a_counter a) (a_symtable a) (a_ez80 a) (a_case a)
                      (a_input a) (a_output a) (a_line a) (a_dirs a) (Some D)) more).
  now rewrite E.
Qed.
Lemma read_command_in w dirs defs ez80 case input output : Forall option_ok defs -> hd0 input <> 45 -> hd0 output <> 45 ->
  exists dd, read_args w (mkargs true false false false false false None None None dirs None) (command_with defs ez80 case input output) = AGo (mkargs true false false false ez80 case (Some input) (Some output) None dirs dd) /\
    holds_names (match dd with Some D => D | None => init_defines input end) (predefined ++ map (fun d => fold_name false (fst d)) defs) /\ holds_texts (match dd with Some D => D | None => init_defines input end) (rev defs ++ built_in).
Proof.
  intros F Hi Ho.
  assert (G : forall defs dd l lt, Forall option_ok defs -> holds_names (match dd with Some D => D | None => init_defines input end) l -> holds_names (match dd with Some D => D | None => init_defines (zs "Commandline") end) l ->
    holds_texts (match dd with Some D => D | None => init_defines input end) lt -> holds_texts (match dd with Some D => D | None => init_defines (zs "Commandline") end) lt ->
    exists dd', read_args w (mkargs true false false false false false None None None dirs dd) (map set_option defs ++ command ez80 case input output) = AGo (mkargs true false false false ez80 case (Some input) (Some output) None dirs dd') /\
      holds_names (match dd' with Some D => D | None => init_defines input end) (l ++ map (fun d => fold_name false (fst d)) defs) /\ holds_texts (match dd' with Some D => D | None => init_defines input end) (rev defs ++ lt)).
  { clear F. intros ds. induction ds as [|d ds IH]; intros dd l lt F H1 H2 T1 T2; cbn [map app].
    - exists dd. rewrite app_nil_r. split; [now apply read_rest|split; [exact H1|exact T1]].
    - inversion F; subst. destruct (read_option w (mkargs true false false false false false None None None dirs dd) d l lt (map set_option ds ++ command ez80 case input output)) as (D & E & Hd & Td); [assumption|exact H2|exact T2|]. rewrite E. cbn [a_normal a_list a_counter a_symtable a_ez80 a_case a_input a_output a_line a_dirs].
      destruct (IH (Some D) _ _ ltac:(assumption) Hd Hd Td Td) as (dd' & E' & H' & T'). exists dd'. split; [exact E'|]. rewrite <- app_assoc in H'. split; [exact H'|]. cbn [rev]. now rewrite <- app_assoc. }
  apply (G defs None predefined built_in F); apply init_names || apply init_texts.
Qed.
Lemma read_command_with w defs ez80 case input output : Forall option_ok defs -> hd0 input <> 45 -> hd0 output <> 45 ->
  exists dd, read_args w args0 (command_with defs ez80 case input output) = AGo (mkargs true false false false ez80 case (Some input) (Some output) None [] dd) /\
    holds_names (match dd with Some D => D | None => init_defines input end) (predefined ++ map (fun d => fold_name false (fst d)) defs) /\ holds_texts (match dd with Some D => D | None => init_defines input end) (rev defs ++ built_in).
Proof. exact (read_command_in w [] defs ez80 case input output). Qed.
Lemma taken_names C D case defs : c_case C = case -> holds_names D (predefined ++ map (fun d => fold_name false (fst d)) defs) ->
  forall n, defined_name case defs n = taken C D n.
Proof. intros <- (H & _) n. rewrite taken_find, H. unfold defined_name. reflexivity. Qed.
Lemma fold_start case w : name_start (hd0 (fold_name case w)) -> name_start (hd0 w).
Proof. unfold fold_name, name_start. destruct case; [auto|]. destruct w as [|y w]; [auto|]. cbn [map hd0]. unfold fold_case. destruct ((97 <=? y) && (y <=? 122)) eqn:Y; lia. Qed.
Lemma start_fold w : name_start (hd0 w) -> name_start (hd0 (fold_name false w)).
Proof. unfold fold_name, name_start. destruct w as [|y w]; [auto|]. cbn [map hd0]. unfold fold_case. destruct ((97 <=? y) && (y <=? 122)) eqn:Y; lia. Qed.
Lemma names_start D defs case : Forall option_ok defs -> holds_names D (predefined ++ map (fun d => fold_name false (fst d)) defs) ->
  forall w, ~ name_start (hd0 w) -> tfind (fold_name case w) D = None.
Proof.
  intros F (H & _) w N. specialize (H (fold_name case w)). destruct (tfind (fold_name case w) D) as [d|]; [|reflexivity]. exfalso. apply N, (fold_start case).
  cbn [isSome] in H. symmetry in H. rewrite existsb_app in H. apply Bool.orb_true_iff in H as [H|H]; apply existsb_exists in H as (k & I & E); apply eqbl_eq in E; rewrite E.
  - unfold predefined in I. simpl in I. repeat (destruct I as [<-|I]; [unfold name_start; cbn; lia|]). contradiction.
  - apply in_map_iff in I as (d0 & <- & I). rewrite Forall_forall in F. destruct (F d0 I) as ((_ & (c & t & Ec & Nc) & _) & _). apply start_fold. now rewrite Ec.
Qed.

(** ** The run *)

Definition chosen_lines (w : world) (defs : list (text * text)) (ez80 case : bool) (b : blocks) : option (list line) :=
  option_map fst (chosen (w_wrap w) ez80 (fold_name case) (defined_name case defs) [] 0 b).
Definition conditional (case : bool) (defs : list (text * text)) (b : blocks) : Prop :=
  blocks_text b <> [] /\ Forall (fun c => c <> 0) (blocks_text b) /\ blocks_ok (fold_name case) (defined_name case defs) false b.
Definition lines_ok (w : world) (defs : list (text * text)) (ez80 case : bool) (p : list line) : Prop :=
  sections_ok (w_wrap w) ez80 (fold_name case) (defined_name case defs) (instructions ez80) [] 0 (sections p).
Definition bytes_of (w : world) (defs : list (text * text)) (ez80 case : bool) (p : list line) : option (list Z) :=
  assemble (w_wrap w) ez80 (fold_name case) (defined_name case defs) p.

Lemma walk_symbols C D l : forall now here t h, walk C D now here l = Some (t, h) -> symbols (c_wrap C) (c_ez80 C) (key C) (taken C D) now here l = Some t.
Proof. induction l as [|x l IH]; intros now here t h; cbn [walk symbols]; [intros [= <- _]; reflexivity|]. destruct (after _ _ _ _ now here x) as [(a, b)|]; [apply IH|discriminate]. Qed.
Lemma blocks_first wraps ez80 fold tk ops b p r : chosen wraps ez80 fold tk [] 0 b = Some (p, r) -> blocks_ok fold tk false b -> sections_ok wraps ez80 fold tk ops [] 0 (sections p) -> blocks_text b <> [] ->
  exists c u, blocks_text b = c :: u /\ c <> 239.
Proof.
  destruct b as [|l b|t cr b|h yes no b]; cbn [chosen blocks_text]; intros Ch Bo So N.
  - congruence.
  - destruct (reached _ _ _ _ [] 0 (sections [l])) as [(a1, a2)|]; [|discriminate]. apply and_then_some in Ch as (p1 & n1 & h1 & p2 & E1 & _ & ->). injection E1 as <- <- <-.
    destruct (first_byte _ _ _ _ _ _ _ _ _ So) as (c & u & E & Nc). cbn [app program_text flat_map] in E. assert (Q : exists v, line_text l = c :: v).
    { destruct (line_text l) as [|c0 v] eqn:Q; [|injection E as -> _; eauto]. exfalso. unfold line_text in Q. apply (f_equal (@length Z)) in Q. rewrite !app_length in Q. destruct (l_cr l); cbn in Q; lia. }
    destruct Q as (v & ->). cbn. eauto.
  - discriminate.
  - destruct Bo as ((Bi & _) & _). unfold head_text. destruct (h_indent h) as [|y i]; cbn; eexists _, _; (split; [reflexivity|]); [lia|]. inversion Bi; subst. unfold blank in *. lia.
Qed.

Lemma cond_run C D dirs input output n b p r bts x stem : c_normal C = true -> c_counter C = false -> c_symtable C = false ->
  (forall w, ~ name_start (hd0 w) -> tfind (key C w) D = None) -> (forall k d, tfind k D = Some d -> d_contents d <> None) ->
  Forall (fun c => c <> 0) (blocks_text b) -> blocks_text b <> [] -> blocks_ok (key C) (taken C D) false b ->
  chosen (c_wrap C) (c_ez80 C) (key C) (taken C D) [] 0 b = Some (p, r) ->
  sections_ok (c_wrap C) (c_ez80 C) (key C) (taken C D) (instructions (c_ez80 C)) [] 0 (sections p) ->
  assemble (c_wrap C) (c_ez80 C) (key C) (taken C D) p = Some bts -> zlen bts <= 8000000 -> (length (blocks_text b) + 24 <= n)%nat ->
  plain_name output x stem -> c_files C input = Some (blocks_text b) ->
  exists s, run_assembly C (knot C n) None output (init_state (c_ez80 C) input dirs D) = Ok 0 s /\
    s_outfiles s = [(output, exported_bytes x bts)] /\ s_printed s = [] /\
    forall n, option_map l_value (tfind (key C n) (s_labels s)) = lookup (key C) (fst r) n.
Proof.
  intros Nm Nc Ns Dn Df Z0 Ne Bo Ch So As Rm Fu Pl Src. destruct r as (T, h). cbn [fst].
  destruct n as [|[|m]]; try lia. assert (Hm : (20 <= m)%nat) by lia.
  pose proof (proj1 (chosen_walk C D) _ _ _ _ _ Ch) as W. pose proof (walk_symbols _ _ _ _ _ _ _ W) as Sy. unfold assemble in As. rewrite Sy in As.
  assert (Kt : instructions (c_ez80 C) = opcode_list \/ instructions (c_ez80 C) = opcode_list_ez80) by (destruct (c_ez80 C); auto).
  apply (run_gen C Nm Nc Ns D dirs input None output (S (S m)) (blocks_text b) T bts x stem); auto; [eapply blocks_first; eauto|lia|].
  intros s3 G.
  assert (L0 : s_iflevel s3 = 0) by (destruct G as (_ & A & _); exact (eq_sym (a_level _ _ _ _ A))).
  pose (dr := fresh_dirs (c_cwd C :: dirs) : Dirs).
  change (@good (eq 0) dr _ _ _ C D (instructions (c_ez80 C)) 1 [] 0 [] [] s3) in G.
  destruct (run_all C D (instructions (c_ez80 C)) Nm Nc Dn Df (S (S m)) ltac:(lia) Kt 0 (no_calls_lawful C) (fun lv _ => @no_calls_run (Z.le lv) _ _ _ _ C D (instructions (c_ez80 C)) (S (S m))) m 1 T Hm ltac:(lia) ltac:(lia) _ (pass_takes C m)) as (Rb & _).
  assert (Ld : leads C D (instructions (c_ez80 C)) (S (S m)) 1 T (pass_loop (knot C (S (S m)))) (blocks_text b ++ []) [] s3 (s_iflevel s3) T h [] [] bts).
  { apply (Rb b false [] 0 s3 [] [] p T h bts []); auto.
    - split; [exact So|]. split; [exact As|]. split; [intros ? ? E; exact E|]. change (zlen []) with 0. lia.
    - rewrite app_nil_r. lia.
    - now apply good_any in G.
    - lia. }
  rewrite app_nil_r in Ld. destruct (Ld (S (S m))) as (fuel' & s4 & b0 & q & Lf & Ep & G4 & Fl & _); [lia|].
  destruct fuel' as [|f]; [cbn in Lf; lia|]. exists D, no_params, no_consts, any_level, h, s4, b0, q. split; [rewrite Ep; reflexivity|]. split; [exact G4|exact Fl].
Qed.

(** * C32 *)
(** A program with conditional blocks: the lines of the branches whose tests hold are assembled,
    all of them and nothing else, and assembly goes on after each block.  The lines that are left
    out can hold anything but a statement that begins with a closing parenthesis: see
    [c32_parenthesis_refuted]. *)
Theorem c32_branches_partial : forall w defs ez80 case fuel input output x stem b p bts,
  Forall option_ok defs -> hd0 input <> 45 -> hd0 output <> 45 -> w_files w input = Some (blocks_text b) -> plain_name output x stem ->
  conditional case defs b -> chosen_lines w defs ez80 case b = Some p -> lines_ok w defs ez80 case p ->
  bytes_of w defs ez80 case p = Some bts -> zlen bts <= 8000000 -> (length (blocks_text b) + 24 <= fuel)%nat ->
  exists s, main fuel w (command_with defs ez80 case input output) = Done 0 [(output, exported_bytes x bts)] (Some s) /\ s_printed s = [].
Proof.
  intros w defs ez80 case fuel input output x stem b p bts Od Hi Ho Hf Pl (Ne & Z0 & Bo) Ch So As Rm Fu.
  destruct (read_command_with w defs ez80 case input output Od Hi Ho) as (dd & Ra & Hn & _).
  set (a := mkargs true false false false ez80 case (Some input) (Some output) None [] dd) in *. set (D := match dd with Some D => D | None => init_defines input end) in *. set (C := mkconf w a).
  pose proof (taken_names C D case defs eq_refl Hn) as Tn.
  unfold chosen_lines in Ch. destruct (chosen _ _ _ (defined_name case defs) [] 0 b) as [(p', r)|] eqn:Ch'; [|discriminate]. injection Ch as ->.
  destruct (cond_run C D [] input output fuel b p r bts x stem) as (s & E & Of & Pr & _); auto.
  - exact (names_start D defs case Od Hn).
  - exact (proj2 Hn).
  - now apply (proj1 (blocks_ok_same (fold_name case) _ _ Tn)).
  - now rewrite <- (proj1 (chosen_same no_calls (w_wrap w) ez80 (fold_name case) _ _ Tn (alike_refl _))).
  - now apply (sections_ok_same no_calls (w_wrap w) ez80 (fold_name case) (instructions ez80) _ _ Tn (alike_refl _)).
  - now rewrite <- (assemble_same no_calls (w_wrap w) ez80 (fold_name case) _ _ Tn (alike_refl _)).
  - exists s. split; [|exact Pr]. unfold main. assert (Nn : exists c l, command_with defs ez80 case input output = c :: l) by (destruct defs, ez80, case; cbn; eauto). destruct Nn as (c & l & Nn). rewrite Nn. rewrite <- Nn, Ra.
    change (match run_assembly C (knot C fuel) None output (init_state ez80 input [] D) with
        | Ok c s => Done c (rev (s_outfiles s)) (Some s)
        | Exit c s => Done c (rev (s_outfiles s)) (Some s)
        | Undef u => Crash u
        | NoFuel => OutOfFuel
        end = Done 0 [(output, exported_bytes x bts)] (Some s)).
    change (run_assembly C (knot C fuel) None output (init_state ez80 input [] D) = Ok 0 s) in E. rewrite E, Of. reflexivity.
Qed.

(** The result is that of the file which has the chosen lines only. *)
Fixpoint only (p : list line) : blocks := match p with [] => Nil | l :: p' => Line l (only p') end.
Lemma only_text p : blocks_text (only p) = program_text p.
Proof. induction p as [|l p IH]; [reflexivity|]. cbn. now rewrite IH. Qed.
Lemma only_chosen wraps ez80 fold tk p : forall now here r, reached wraps ez80 fold tk now here (sections p) = Some r -> chosen wraps ez80 fold tk now here (only p) = Some (p, r).
Proof.
  induction p as [|l p IH]; intros now here r H; [injection H as <-; reflexivity|]. cbn [only chosen].
  assert (Q : forall l1 l2 now here, reached wraps ez80 fold tk now here (l1 ++ l2) = match reached wraps ez80 fold tk now here l1 with Some (a, b) => reached wraps ez80 fold tk a b l2 | None => None end).
  { clear. induction l1 as [|x l1 IH]; intros l2 now here; [reflexivity|]. cbn [app reached]. destruct (after _ _ _ _ now here x) as [(a, b)|]; [apply IH|reflexivity]. }
  change (l :: p) with ([l] ++ p) in H. unfold sections in H. rewrite flat_map_app, Q in H. fold (sections [l]) (sections p) in H. destruct (reached _ _ _ _ now here (sections [l])) as [(a, b)|]; [|discriminate].
  cbn [and_then]. now rewrite (IH _ _ _ H).
Qed.
Lemma chosen_parts wraps ez80 fold tk :
  (forall b now here p r inside, chosen wraps ez80 fold tk now here b = Some (p, r) -> blocks_ok fold tk inside b ->
     Forall line_ok p /\ (length (program_text p) <= length (blocks_text b))%nat /\ (forall P, Forall P (blocks_text b) -> Forall P (program_text p)) /\ reached wraps ez80 fold tk now here (sections p) = Some r) /\
  (forall a now here p r, chosen_alt wraps ez80 fold tk now here a = Some (p, r) -> alt_ok fold tk a ->
     Forall line_ok p /\ (length (program_text p) <= length (alt_text a))%nat /\ (forall P, Forall P (alt_text a) -> Forall P (program_text p)) /\ reached wraps ez80 fold tk now here (sections p) = Some r).
Proof.
  assert (Q : forall l1 l2 now here, reached wraps ez80 fold tk now here (l1 ++ l2) = match reached wraps ez80 fold tk now here l1 with Some (a, b) => reached wraps ez80 fold tk a b l2 | None => None end).
  { clear. induction l1 as [|x l1 IH]; intros l2 now here; [reflexivity|]. cbn [app reached]. destruct (after _ _ _ _ now here x) as [(a, b)|]; [apply IH|reflexivity]. }
  assert (J : forall now here x f p r (n1 n2 : list Z), and_then x f = Some (p, r) ->
    (forall p1 r1, x = Some (p1, r1) -> Forall line_ok p1 /\ (length (program_text p1) <= length n1)%nat /\ (forall P, Forall P n1 -> Forall P (program_text p1)) /\ reached wraps ez80 fold tk now here (sections p1) = Some r1) ->
    (forall a b p2 r2, f a b = Some (p2, r2) -> Forall line_ok p2 /\ (length (program_text p2) <= length n2)%nat /\ (forall P, Forall P n2 -> Forall P (program_text p2)) /\ reached wraps ez80 fold tk a b (sections p2) = Some r2) ->
    Forall line_ok p /\ (length (program_text p) <= length n1 + length n2)%nat /\ (forall P, Forall P n1 -> Forall P n2 -> Forall P (program_text p)) /\ reached wraps ez80 fold tk now here (sections p) = Some r).
  { intros now here x f p r n1 n2 E H1 H2. apply and_then_some in E as (p1 & a & b & p2 & E1 & E2 & ->). destruct (H1 _ _ E1) as (A1 & A2 & A3 & A4). destruct (H2 _ _ _ _ E2) as (B1 & B2 & B3 & B4).
    unfold program_text in *. rewrite flat_map_app, app_length. split; [apply Forall_app; auto|]. split; [lia|]. split; [intros P P1 P2; apply Forall_app; auto|]. rewrite sections_app, Q, A4. exact B4. }
  apply blocks_alt_ind.
  - intros now here p r inside E _. injection E as <- <-. cbn. repeat split; auto.
  - intros l b IH now here p r inside E (Lo & _ & Ob). cbn [chosen] in E. destruct (reached _ _ _ _ now here (sections [l])) as [r1|] eqn:R1; [|discriminate].
    destruct (J now here _ _ _ _ (line_text l) (blocks_text b) E) as (A & B & F & G).
    + intros p1 r1' H. injection H as <- <-. split; [constructor; [exact Lo|constructor]|]. unfold program_text. cbn [flat_map]. rewrite app_nil_r. auto.
    + intros; eapply IH; eauto.
    + cbn [blocks_text]. split; [exact A|]. split; [rewrite app_length; exact B|]. split; [intros P H; apply Forall_app in H as (? & ?); auto|exact G].
  - discriminate.
  - intros h yes IHy no IHn b IH now here p r inside E (_ & Oy & On & Ob). cbn [chosen] in E. cbn [blocks_text]. destruct (holds _ _ _ now here (h_test h)) as [[|]|]; [| |discriminate].
    + destruct (J now here _ _ _ _ (blocks_text yes) (blocks_text b) E) as (A & B & F & G); [intros; eapply IHy; eauto|intros; eapply IH; eauto|].
      split; [exact A|]. split; [rewrite !app_length; lia|]. split; [|exact G]. intros P H. rewrite !Forall_app in H. destruct H as (_ & ? & _ & ?). auto.
    + destruct (J now here _ _ _ _ (alt_text no) (blocks_text b) E) as (A & B & F & G); [intros; eapply IHn; eauto|intros; eapply IH; eauto|].
      split; [exact A|]. split; [rewrite !app_length; lia|]. split; [|exact G]. intros P H. rewrite !Forall_app in H. destruct H as (_ & _ & ? & ?). auto.
  - intros m now here p r E _. injection E as <- <-. cbn. repeat split; auto. lia.
  - intros m no IH e now here p r E (_ & On & _). destruct (IH _ _ _ _ _ E On) as (A & B & F & G). cbn [alt_text]. split; [exact A|]. split; [rewrite !app_length; lia|]. split; [|exact G]. intros P H. rewrite !Forall_app in H. destruct H as (_ & ? & _). auto.
  - intros h yes IHy no IHn now here p r E (_ & Oy & On). cbn [chosen_alt] in E. cbn [alt_text]. destruct (holds _ _ _ now here (h_test h)) as [[|]|]; [| |discriminate].
    + destruct (IHy _ _ _ _ _ E Oy) as (A & B & F & G). split; [exact A|]. split; [rewrite !app_length; lia|]. split; [|exact G]. intros P H. rewrite !Forall_app in H. destruct H as (_ & ? & _). auto.
    + destruct (IHn _ _ _ _ E On) as (A & B & F & G). split; [exact A|]. split; [rewrite !app_length; lia|]. split; [|exact G]. intros P H. rewrite !Forall_app in H. destruct H as (_ & _ & ?). auto.
Qed.
Lemma only_ok fold tk p : Forall line_ok p -> blocks_ok fold tk false (only p).
Proof. induction 1 as [|l p H F IH]; [exact I|]. cbn [only blocks_ok]. split; [exact H|]. split; [discriminate|exact IH]. Qed.
Theorem c32_same_as_chosen_partial : forall w defs ez80 case fuel input output other x stem b p bts,
  Forall option_ok defs -> hd0 input <> 45 -> hd0 other <> 45 -> hd0 output <> 45 -> plain_name output x stem ->
  w_files w input = Some (blocks_text b) -> w_files w other = Some (program_text p) ->
  conditional case defs b -> chosen_lines w defs ez80 case b = Some p -> p <> [] -> lines_ok w defs ez80 case p ->
  bytes_of w defs ez80 case p = Some bts -> zlen bts <= 8000000 -> (length (blocks_text b) + 24 <= fuel)%nat ->
  exists s s', main fuel w (command_with defs ez80 case input output) = Done 0 [(output, exported_bytes x bts)] (Some s) /\ s_printed s = [] /\
    main fuel w (command_with defs ez80 case other output) = Done 0 [(output, exported_bytes x bts)] (Some s') /\ s_printed s' = [].
Proof.
  intros w defs ez80 case fuel input output other x stem b p bts Od Hi Hi2 Ho Pl Hf Hf2 Co Ch Pn So As Rm Fu.
  destruct (c32_branches_partial w defs ez80 case fuel input output x stem b p bts) as (s & E & Pr); auto.
  pose proof Co as (Ne & Z0 & Bo). pose proof Ch as Ch1. unfold chosen_lines in Ch1. destruct (chosen _ _ _ (defined_name case defs) [] 0 b) as [(p', r)|] eqn:Ch2; [|discriminate]. injection Ch1 as ->.
  destruct (proj1 (chosen_parts _ _ _ _) _ _ _ _ _ _ Ch2 Bo) as (A & B & F & G).
  destruct (c32_branches_partial w defs ez80 case fuel other output x stem (only p) p bts) as (s' & E' & Pr'); auto.
  - now rewrite only_text.
  - split; [|split; [rewrite only_text; auto|now apply only_ok]]. rewrite only_text. intros H. destruct p as [|l p]; [congruence|]. apply (f_equal (@length Z)) in H. unfold program_text in H. cbn [flat_map] in H. unfold line_text in H. rewrite !app_length in H. destruct (l_cr l); cbn in H; lia.
  - unfold chosen_lines. now rewrite (only_chosen _ _ _ _ _ _ _ _ G).
  - rewrite only_text. lia.
  - exists s, s'. auto.
Qed.

(** ** A closing parenthesis at the start of a line that is left out *)
Definition paren_text : text := zs "#ifdef q" ++ [10] ++ zs ")" ++ [10] ++ zs "#endif" ++ [10].
Lemma skip_hangs words fuel : forall s, existsb (fun w => line_has_word (zs ")" ++ [10] ++ zs "#endif" ++ [10]) w) words = false -> s_erroc s = false ->
  skip_inner fuel words 0 (zs ")" ++ [10] ++ zs "#endif" ++ [10]) (zs "#endif" ++ [10]) s = NoFuel.
Proof.
  induction fuel as [|f IH]; intros s W E; [reflexivity|]. cbn [skip_inner]. change (line_has_word (zs ")" ++ [10] ++ zs "#endif" ++ [10]) (zs "#IF")) with false. change (0 <? 0) with false. change (0 =? 0) with true. cbn [andb]. rewrite W.
  change (next_code_line (zs ")" ++ [10] ++ zs "#endif" ++ [10])) with (zs ")" ++ [10] ++ zs "#endif" ++ [10]). rewrite bind_get, E. cbn [negb].
  change (Nat.ltb (length (zs "#endif" ++ [10])) (length (zs ")" ++ [10] ++ zs "#endif" ++ [10]))) with true. cbn [andb]. now apply IH.
Qed.
Lemma do_if_hangs C m c s : s_erroc s = false -> do_if (knot C (S (S m))) ([10] ++ zs ")" ++ [10] ++ zs "#endif" ++ [10]) c s = NoFuel.
Proof.
  intros E. unfold do_if, skip_until. unfold bind at 1. rewrite bind_get.
  set (t := zs ")" ++ [10] ++ zs "#endif" ++ [10]) in *.
  assert (H : forall n ln, skip_until_loop (knot C (S (S m))) (S (S n)) false [zs "#endif"] 0 ln ([10] ++ t) s = NoFuel).
  { intros n ln. cbn [skip_until_loop app]. rewrite bind_get, E. change (skip_to_next_line (10 :: t)) with t.
    assert (E1 : skip_inner (f_n (knot C (S (S m)))) [zs "#endif"] 0 (10 :: t) t s = Ok (inr 0) s).
    { change (f_n (knot C (S (S m)))) with (S (S m)). cbn [skip_inner]. change (line_has_word (10 :: t) (zs "#IF")) with false. change (0 <? 0) with false. change (0 =? 0) with true. cbn [andb existsb].
      change (line_has_word (10 :: t) (zs "#endif")) with false. cbn [orb]. change (next_code_line (10 :: t)) with t. rewrite bind_get, E. rewrite Nat.ltb_irrefl. reflexivity. }
    rewrite (bind_ok _ _ _ _ _ E1). cbv beta iota.
    change ((e <- get s_erroc ;; if e then set_error SPASM_ERR_UNMATCHED_IF ;;; whenM false (upd (set_line (ln + 1))) ;;; ret t else
       r <- skip_inner (S (S m)) [zs "#endif"] 0 t (zs "#endif" ++ [10]) ;;
        match r with
        | inl line => whenM false (upd (set_line (ln + 1))) ;;; ret line
        | inr level => skip_until_loop (knot C (S (S m))) n false [zs "#endif"] level (ln + 1 + 1) (zs "#endif" ++ [10])
        end) s = NoFuel).
    rewrite bind_get, E. unfold bind at 1. unfold t. now rewrite skip_hangs. }
  change (length ([10] ++ t)) with (S (length t)). now rewrite H.
Qed.
Theorem c32_parenthesis_refuted : forall w fuel output, w_files w (zs "in") = Some paren_text -> hd0 output <> 45 ->
  main fuel w [zs "in"; output] = OutOfFuel.
Proof.
  intros w fuel output Hf Ho.
  assert (Big : forall m, main (S (S (S (S m)))) w [zs "in"; output] = OutOfFuel).
  { intros m. unfold main. change [zs "in"; output] with (command false false (zs "in") output). rewrite (read_command w false false (zs "in") output); [|vm_compute; discriminate|exact Ho].
    unfold command. cbn [app a_input a_output a_defs a_ez80 a_dirs a_line]. set (a := mkargs true false false false false false (Some (zs "in")) (Some output) None [] None). set (C := mkconf w a).
    destruct (run_begin C (init_defines (zs "in")) [] (zs "in") None output (S (S (S (S m)))) paren_text) as (s3 & G & E).
    - apply Forall_forall. intros c Hc E0. subst. unfold paren_text in Hc. vm_compute in Hc. intuition discriminate.
    - exists 35, (tl paren_text). split; [reflexivity|lia].
    - lia.
    - exact Hf.
    - change (init_state (c_ez80 C) (zs "in") [] (init_defines (zs "in"))) with (init_state false (zs "in") [] (init_defines (zs "in"))) in E. rewrite E. clear E. unfold bind at 1.
      enough (P : pass_loop (knot C (S (S (S (S m))))) (S (S (S (S m)))) paren_text s3 = NoFuel) by now rewrite P.
      destruct G as (K & A & _). pose proof (k_erroc _ _ _ _ _ _ K) as Ne. cbn [pass_loop]. rewrite bind_get, Ne.
      change paren_text with (([] ++ 35 :: zs "ifdef q") ++ [10] ++ zs ")" ++ [10] ++ zs "#endif" ++ [10]) at 1 2.
      change (f_line (knot C (S (S (S (S m)))))) with (line_loop C (knot C (S (S (S m)))) (S (S (S m)))). cbn [app].
      change (35 :: zs "ifdef q" ++ 10 :: zs ")" ++ 10 :: zs "#endif" ++ [10]) with (([] ++ 35 :: zs "ifdef q") ++ [10] ++ zs ")" ++ [10] ++ zs "#endif" ++ [10]).
      unfold bind at 1. rewrite (dir_line C (S (S m)) [] (zs "ifdef q")) by constructor. unfold bind at 1.
      enough (P : handle_preop C (knot C (S (S m))) (zs "ifdef q" ++ [10] ++ zs ")" ++ [10] ++ zs "#endif" ++ [10]) s3 = NoFuel) by now rewrite P.
      change (handle_preop C (knot C (S (S m))) (zs "ifdef q" ++ [10] ++ zs ")" ++ [10] ++ zs "#endif" ++ [10])) with
        (q <- preop_ifdef C (knot C (S (S m))) true (zs "q" ++ [10] ++ zs ")" ++ [10] ++ zs "#endif" ++ [10]) ;; ret (Some q)).
      unfold bind at 1. unfold preop_ifdef. change (is_eol (zs "q" ++ [10] ++ zs ")" ++ [10] ++ zs "#endif" ++ [10])) with false. cbv iota. rewrite bind_get, bind_upd.
      set (s4 := set_iflevel _ s3). change (skip_to_name_end (zs "q" ++ [10] ++ zs ")" ++ [10] ++ zs "#endif" ++ [10])) with ([10] ++ zs ")" ++ [10] ++ zs "#endif" ++ [10]).
      assert (Es : search_defines C (zs "q") true s4 = Ok None s4).
      { unfold search_defines. rewrite !bind_get. change (s_args s4) with (s_args s3). change (s_defines s4) with (s_defines s3). rewrite (k_args _ _ _ _ _ _ K), (k_defines _ _ _ _ _ _ K). reflexivity. }
      change (seg (zs "q" ++ [10] ++ zs ")" ++ [10] ++ zs "#endif" ++ [10]) ([10] ++ zs ")" ++ [10] ++ zs "#endif" ++ [10])) with (zs "q"). rewrite (bind_ok _ _ _ _ _ Es). rewrite bind_ret. rewrite do_if_hangs by exact Ne. reflexivity. }
  destruct (main fuel w [zs "in"; output]) eqn:Q; [| |reflexivity]; exfalso; specialize (Big fuel); rewrite (main_mono fuel) in Big; congruence || lia.
Qed.

(** * C33 *)
(** With no conditional open, #else and #endif are errors, whatever the state. *)
Theorem c33_reported_partial : forall C R word rest s, word_is word [zs "else"; zs "endif"] = true -> isspace (hd0 rest) = true -> s_iflevel s = 0 ->
  exists q s', handle_preop C R (word ++ rest) s = Ok (Some q) s' /\
    s_errs s' = mkerr SPASM_ERR_STRAY_PREOP (s_sess s) false (s_line s) (s_file s) :: s_errs s.
Proof.
  intros C R word rest s W Sp L.
  assert (G : forall k o, eqbl_ci word k = true -> forallb isalpha k = true -> find_ci k preops = Some o -> skip_nonspace (word ++ rest) = rest /\ seg (word ++ rest) rest = word /\ find_ci word preops = Some o).
  { intros k o E A F. apply (preop_word word [k]); [unfold word_is; cbn; now rewrite E|constructor; [auto|constructor]|exact Sp]. }
  unfold word_is in W. cbn [existsb] in W. apply Bool.orb_true_iff in W as [W|W]; [|apply Bool.orb_true_iff in W as [W|W]; [|discriminate]].
  - destruct (G _ P_ELSE W eq_refl eq_refl) as (E1 & E2 & E3). unfold handle_preop. rewrite E1, E2, E3, bind_get, L. eexists _, _. split; reflexivity.
  - destruct (G _ P_ENDIF W eq_refl eq_refl) as (E1 & E2 & E3). unfold handle_preop. rewrite E1, E2, E3, bind_get, L. eexists _, _. split; reflexivity.
Qed.
(** A whole program: lines of code, then an #else or #endif.  The run fails with this one
    message and writes nothing. *)
Theorem c33_program_partial : forall w ez80 case fuel input output p mk bts,
  hd0 input <> 45 -> hd0 output <> 45 -> w_files w input = Some (program_text p ++ mark_text mk) ->
  Forall (fun c => c <> 0) (program_text p ++ mark_text mk) -> Forall line_ok p -> (mark_ok [zs "else"] mk \/ mark_ok [zs "endif"] mk) ->
  lines_ok w [] ez80 case p -> bytes_of w [] ez80 case p = Some bts -> zlen bts <= 8000000 ->
  (length (program_text p ++ mark_text mk) + 24 <= fuel)%nat ->
  exists s e, main fuel w (command ez80 case input output) = Done 3 [] (Some s) /\ s_printed s = [e] /\
    e_code e = SPASM_ERR_STRAY_PREOP /\ e_warn e = false.
Proof.
  intros w ez80 case fuel input output p mk bts Hi Ho Hf Z0 Lo Mk So As Rm Fu.
  set (a := mkargs true false false false ez80 case (Some input) (Some output) None [] None). set (C := mkconf w a). set (D := init_defines input).
  assert (Tn : forall n, defined_name case [] n = taken C D n) by (intros n; unfold defined_name; cbn [map]; rewrite app_nil_r; reflexivity).
  apply (proj1 (sections_ok_same no_calls (w_wrap w) ez80 (fold_name case) (instructions ez80) _ _ Tn (alike_refl _) _ _ _)) in So.
  unfold bytes_of in As. rewrite (assemble_same no_calls (w_wrap w) ez80 (fold_name case) _ _ Tn (alike_refl _)) in As.
  destruct fuel as [|[|m]]; try lia. assert (Hm : (20 <= m)%nat) by lia.
  assert (Fb : exists c u, program_text p ++ mark_text mk = c :: u /\ c <> 239).
  { destruct p as [|l p].
    - cbn [program_text flat_map app]. unfold mark_text. assert (B : Forall blank (m_indent mk)) by (destruct Mk as [M|M]; apply M). destruct (m_indent mk) as [|y i]; cbn; eexists _, _; (split; [reflexivity|]); [lia|]. inversion B; subst. unfold blank in *. lia.
    - destruct (first_byte _ _ _ _ _ _ _ _ _ So) as (c & u & E & N). rewrite E. cbn. eauto. }
  assert (Kt : instructions (c_ez80 C) = opcode_list \/ instructions (c_ez80 C) = opcode_list_ez80) by (destruct (c_ez80 C); auto).
  pose (dr := fresh_dirs [c_cwd C] : Dirs).
  destruct (run_begin C D [] input None output (S (S m)) _ Z0 Fb ltac:(lia) Hf) as (s3 & G & Er).
  assert (L0 : s_iflevel s3 = 0) by (destruct G as (_ & A & _); exact (eq_sym (a_level _ _ _ _ A))).
  unfold assemble in As. destruct (symbols _ _ _ _ [] 0 (sections p)) as [T|] eqn:Sy; [|discriminate].
  assert (W : exists h, walk C D [] 0 (sections p) = Some (T, h)).
  { assert (Q : forall l now here, symbols (w_wrap w) ez80 (fold_name case) (taken C D) now here l = Some T -> exists h, walk C D now here l = Some (T, h)).
    { clear. induction l as [|x l IH]; intros now here; cbn [symbols walk]; [intros [= ->]; eauto|]. change (key C) with (fold_name case). destruct (after _ _ _ _ now here x) as [(t1, h1)|]; [apply IH|discriminate]. }
    exact (Q _ _ _ Sy). }
  destruct W as (h & W).
  destruct (lines_lead C D (instructions (c_ez80 C)) eq_refl eq_refl (predefined_names case input) (proj2 (init_names input)) (S (S m)) ltac:(lia) Kt 0 (no_calls_lawful C) (fun lv _ => @no_calls_run (Z.le lv) _ _ _ _ C D (instructions (c_ez80 C)) (S (S m))) m 1 T Hm ltac:(lia) ltac:(lia) _ (pass_takes C m) p (fun lv => @no_calls_run lv _ _ _ _ C D (instructions (c_ez80 C)) (S (S m))) (mark_text mk) [] 0 s3 [] [] T h bts) with (fuel := S (S m)) as (f & s4 & b0 & q & Lf & Ep & G4 & V4); auto.
  { split; [exact So|]. split; [exact As|]. split; [intros ? ? E; exact E|]. change (zlen []) with 0. lia. }
  { rewrite app_length in Fu. lia. }
  { now apply good_any in G. }
  { lia. }
  rewrite L0 in V4. destruct G4 as (K4 & A4 & _). pose proof (k_erroc _ _ _ _ _ _ K4) as Ne.
  set (er := mkerr SPASM_ERR_STRAY_PREOP (s_sess s4) false (s_line s4) (s_file s4)).
  assert (Pl : exists s5, pass_loop (knot C (S (S m))) f (mark_text mk) s4 = Ok tt s5 /\ s_errs s5 = er :: s_errs s4 /\ s_printed s5 = s_printed s4 /\ s_outfiles s5 = s_outfiles s4).
  { destruct f as [|[|f]]; [lia|cbn in Lf; unfold mark_text in Lf; rewrite app_length in Lf; cbn in Lf; lia|].
    assert (Hp : exists q5 s5, handle_preop C (knot C m) (mark_rest mk ++ []) s4 = Ok (Some q5) s5 /\ skip_to_next_line q5 = [] /\ hd0 (skip_ws q5) <> 92 /\
       s_errs s5 = er :: s_errs s4 /\ s_printed s5 = s_printed s4 /\ s_outfiles s5 = s_outfiles s4 /\ s_erroc s5 = false).
    { assert (Oe : ending_ok (m_end mk)) by (destruct Mk as [M|M]; apply M). assert (Ce : calm false (ending_text (m_end mk)) = true) by (destruct Mk as [M|M]; apply M).
      destruct (ending_core_ok C D (predefined_names case input) (proj2 (init_names input)) 20%nat ltac:(lia) _ Oe Ce) as (_ & _ & Nh & _).
      exists (ending_core (m_end mk) ++ []), (set_errs (er :: s_errs s4) s4).
      destruct Mk as [M|M].
      - destruct (mark_preop C D (predefined_names case input) (proj2 (init_names input)) 20%nat ltac:(lia) mk _ P_ELSE [] M eq_refl eq_refl) as (E1 & E2 & E3). split; [|split; [now apply (ending_resumes C D (instructions (c_ez80 C)) (predefined_names case input) (proj2 (init_names input)) (S (S m)) ltac:(lia) 0 (fun lv _ => @no_calls_run (Z.le lv) _ _ _ _ C D (instructions (c_ez80 C)) (S (S m))))|split; [apply Nh|auto]]]. unfold handle_preop. rewrite E3, E1, E2, bind_get, V4. reflexivity.
      - destruct (mark_preop C D (predefined_names case input) (proj2 (init_names input)) 20%nat ltac:(lia) mk _ P_ENDIF [] M eq_refl eq_refl) as (E1 & E2 & E3). split; [|split; [now apply (ending_resumes C D (instructions (c_ez80 C)) (predefined_names case input) (proj2 (init_names input)) (S (S m)) ltac:(lia) 0 (fun lv _ => @no_calls_run (Z.le lv) _ _ _ _ C D (instructions (c_ez80 C)) (S (S m))))|split; [apply Nh|auto]]]. unfold handle_preop. rewrite E3, E1, E2, bind_get, V4. reflexivity. }
    destruct Hp as (q5 & s5 & E5 & N5 & N92 & Er5 & Pr5 & Of5 & Ne5). rewrite <- (app_nil_r (mark_text mk)), mark_split.
    assert (B : Forall blank (m_indent mk)) by (destruct Mk as [M|M]; apply M).
    rewrite (pass_dir C D (instructions (c_ez80 C)) (predefined_names case input) (proj2 (init_names input)) (S (S m)) ltac:(lia) 0 (fun lv _ => @no_calls_run (Z.le lv) _ _ _ _ C D (instructions (c_ez80 C)) (S (S m))) m 1 Hm ltac:(lia) _ (pass_takes C m) (m_indent mk) (mark_rest mk) [] s4 (S f) q5 s5 B Ne E5 Ne5 N92), N5. eexists. split; [reflexivity|]. auto. }
  destruct Pl as (s5 & P5 & Er5 & Pr5 & Of5).
  change (run_assembly C (knot C (S (S m))) None output (init_state ez80 input [] D) = (pass_loop (knot C (S (S m))) (S (S m)) (program_text p ++ mark_text mk) ;;; run_tail C (knot C (S (S m))) output) s3) in Er.
  rewrite <- Ep in P5. rewrite (bind_ok _ _ _ _ _ P5) in Er. unfold run_tail in Er.
  destruct (quiet_errs _ (errs_all _ _ (k_errs _ _ _ _ _ _ K4))) as (Q1 & Q2 & Q3).
  assert (S1 : s_sess s4 = 1) by exact (k_sess _ _ _ _ _ _ K4).
  assert (E6 : replay_session C 1 true s5 = Ok tt (set_printed [er] s5)).
  { unfold replay_session. rewrite bind_get. cbn [Z.eqb Pos.eqb]. rewrite bind_get. rewrite Er5, Pr5, (k_printed _ _ _ _ _ _ K4). change (c_counter C) with false. cbv iota.
    assert (E : replay_print true (er :: s_errs s4) = [er]). { unfold replay_print in *. cbn [rev]. rewrite filter_app, Q1. cbn [filter app]. unfold er at 1. cbn [e_sess e_code]. rewrite S1. reflexivity. }
    rewrite E. reflexivity. }
  rewrite (bind_ok _ _ _ _ _ E6) in Er.
  set (s6 := set_printed [er] s5) in *.
  assert (E7 : exists s7, end_session 1 s6 = Exit 3 s7 /\ s_printed s7 = [er] /\ s_outfiles s7 = []).
  { unfold end_session. rewrite !bind_get, !bind_upd. change (s_errs s6) with (s_errs s5). rewrite Er5. cbn [lead]. unfold er at 1. cbn [e_sess]. rewrite S1. cbn [Z.eqb Pos.eqb existsb].
    eexists. split; [reflexivity|]. split; [reflexivity|]. change (s_outfiles s5 = []). rewrite Of5. exact (k_outfiles _ _ _ _ _ _ K4). }
  destruct E7 as (s7 & E7 & Pr7 & Of7). rewrite (bind_exit _ _ _ _ _ E7) in Er.
  exists s7, er. split; [|split; [exact Pr7|split; reflexivity]].
  unfold main. assert (Nn : exists c l, command ez80 case input output = c :: l) by (destruct ez80, case; cbn; eauto). destruct Nn as (c & l & Nn). rewrite Nn. rewrite <- Nn. rewrite (read_command w ez80 case input output Hi Ho).
  change (match run_assembly C (knot C (S (S m))) None output (init_state ez80 input [] D) with
        | Ok c s => Done c (rev (s_outfiles s)) (Some s)
        | Exit c s => Done c (rev (s_outfiles s)) (Some s)
        | Undef u => Crash u
        | NoFuel => OutOfFuel
        end = Done 3 [] (Some s7)).
  rewrite Er, Of7. reflexivity.
Qed.
(** It is not reported after a conditional that was left out without an #else. *)
Definition stray_text : text := zs "#if 0" ++ [10] ++ zs "#endif" ++ [10] ++ zs "#endif" ++ [10].
Definition stray_world : world := mkworld (fun _ => Some stray_text) (fun _ => 0) [] (fun _ => []) true.
Theorem c33_left_out_refuted : exists s, main 100 stray_world [zs "a"; zs "b.bin"] = Done 0 [(zs "b.bin", [])] (Some s) /\ s_printed s = [].
Proof.
  destruct (main 100 stray_world [zs "a"; zs "b.bin"]) as [c f [s|]|u|] eqn:E; try (exfalso; vm_compute in E; discriminate).
  exists s. vm_compute in E. injection E as <- <- <-. split; reflexivity.
Qed.

(** ** A program with conditional blocks *)
Definition no_comment : ending := mkending [] None false.
Definition ex_defs : list (text * text) := [(zs "Fast", zs "1")].
Definition ex_size2 : expr := Bin (ex_name (zs "size")) Minus (Leaf NoSign (Num (Decimal (zs "2")))).
Definition ex_equ : line := ex_line (mksection (Some (zs "size")) false sp (SEqu (zs "equ") sp (ex_at [] (ex_num (zs "2")) (zs "2") []))) [] None.
Definition ex_block : line := ex_line (mksection None false sp (SFill (zs "block") sp (ex_at [] (ex_num (zs "2")) (zs "2") []) None)) [] None.
Definition ex_done : line := ex_line (mksection (Some (zs "done")) true sp (ex_ins (zs "ret") [] [] [] [] [])) [] None.
Definition ex_ret : line := ex_line (mksection None false sp (ex_ins (zs "ret") [] [] [] [] [])) [] None.
Definition ex_blocks : blocks :=
  Line ex_equ
  (Cond (mkhead [] (zs "ifdef") sp (Defined (zs "fast")) (mkending sp (Some (zs " quick")) false))
     (Line ex_block
     (Cond (mkhead sp (zs "IF") sp (Expr (ex_at [] ex_size2 (zs "size-2") [])) no_comment)
        (Other (zs "this is not code") false Nil)
        (Else (mkmark (zs "  ") (zs "else") no_comment) (Line ex_done Nil) (mkmark sp (zs "endif") (mkending [] None true)))
        Nil))
     (Elif (mkhead [] (zs "elif") sp (Expr (ex_at [] (ex_num (zs "1")) (zs "1") [])) no_comment)
        (Other ([34] ++ zs "neither \ is (this )") true Nil)
        (Else (mkmark [] (zs "else") no_comment) (Line ex_ret Nil) (mkmark [] (zs "endif") no_comment)))
     (Line ex_ret Nil)).
Example ex_blocks_text : blocks_text ex_blocks = zs "size .equ 2" ++ [10] ++ zs "#ifdef fast ; quick" ++ [10] ++ zs " .block 2" ++ [10] ++ zs " #IF size-2" ++ [10] ++
  zs "this is not code" ++ [10] ++ zs "  #else" ++ [10] ++ zs "done: ret" ++ [10] ++ zs " #endif" ++ [13; 10] ++ zs "#elif 1" ++ [10] ++
  [34] ++ zs "neither \ is (this )" ++ [13; 10] ++ zs "#else" ++ [10] ++ zs " ret" ++ [10] ++ zs "#endif" ++ [10] ++ zs " ret" ++ [10].
Proof. reflexivity. Qed.
Definition ex_chosen : list line := [ex_equ; ex_block; ex_done; ex_ret].
Lemma ex_chosen_lines w : chosen_lines w ex_defs false false ex_blocks = Some ex_chosen.
Proof. unfold chosen_lines. destruct (w_wrap w); vm_compute; reflexivity. Qed.
Lemma ex_option : Forall option_ok ex_defs.
Proof. constructor; [|constructor]. split; [now apply name_okb_ok|]. split; [vm_compute; discriminate|reflexivity]. Qed.
Ltac no_breaks := repeat first [apply Forall_nil|apply Forall_cons; [split; discriminate|]].
Lemma ex_known2 n : n <> [] -> forallb isdigit n = true -> zlen n <= 254 -> forall tk, known_ok (fold_name false) tk (ex_at [] (ex_num n) n []).
Proof. intros N Dg Ln tk. split; [apply ex_written; auto; change (zlen []) with 0; lia|reflexivity]. Qed.
Lemma ex_end : ending_ok no_comment /\ (e_comment no_comment <> None -> e_blanks no_comment <> []) /\ calm false (ending_text no_comment) = true.
Proof. split; [split; [constructor|exact I]|]. split; [intros H; now elim H|reflexivity]. Qed.
Lemma ex_conditional : conditional false ex_defs ex_blocks.
Proof.
  split; [vm_compute; discriminate|]. split.
  { assert (E : forallb (fun c => negb (c =? 0)) (blocks_text ex_blocks) = true) by (vm_compute; reflexivity). rewrite forallb_forall in E. apply Forall_forall. intros c Hc. specialize (E c Hc). cbv beta in E. lia. }
  assert (S1 : Forall blank sp) by exact ex_sp. assert (S2 : Forall blank (zs "  ")) by (change (zs "  ") with [32; 32]; blanks).
  destruct ex_end as (N1 & N2 & N3).
  unfold ex_blocks. cbn [blocks_ok alt_ok]. split; [exact I|]. split; [discriminate|]. split; [|split; [|split; [|split; [exact I|split; [discriminate|exact I]]]]].
  - split; [constructor|]. split; [reflexivity|]. split; [exact ex_gap|]. split; [split; [now apply name_okb_ok|split; reflexivity]|]. split; [unfold no_break; cbn; no_breaks|].
    split; [split; [exact S1|cbn; unfold no_break; no_breaks]|]. split; [|reflexivity]. exists (zs " quic"), (ch "k"). split; [reflexivity|]. vm_compute. intuition discriminate.
  - split; [exact I|split; [intros _; split; [unfold no_break; vm_compute; no_breaks|reflexivity]|]]. split; [|split; [|split; [|exact I]]].
    + split; [exact S1|]. split; [reflexivity|]. split; [exact ex_gap|]. split; [|split; [unfold no_break; vm_compute; no_breaks|split; [exact N1|split; [exact I|reflexivity]]]].
      split; [|reflexivity]. split; [constructor|]. split; [|split; [constructor|split; [cbn; lia|vm_compute; discriminate]]].
      change (w_text (ex_at [] ex_size2 (zs "size-2") [])) with (zs "size" ++ [] ++ spelling Minus ++ [] ++ zs "2"). constructor; [|constructor|constructor| |discriminate].
      * apply w_name. now apply name_okb_ok.
      * apply (W_leaf NoSign [] (Num (Decimal (zs "2")))); [|constructor|reflexivity]. split; [discriminate|]. split; [|exact I]. constructor; [eexists; split; [reflexivity|vm_compute; reflexivity]|constructor].
    + split; [unfold no_break; vm_compute; no_breaks|]. split; [reflexivity|exact I].
    + split; [split; [exact S2|split; [reflexivity|auto]]|]. split.
      * split; [exact I|split; [intros _; split; [unfold no_break; vm_compute; no_breaks|reflexivity]|exact I]].
      * split; [exact S1|]. split; [reflexivity|]. split; [split; [constructor|exact I]|]. split; [intros H; now elim H|reflexivity].
  - cbn [alt_ok]. split; [|split; [|split; [|split]]].
    + split; [constructor|]. split; [reflexivity|]. split; [exact ex_gap|]. split; [apply ex_known2; try discriminate; reflexivity|]. split; [unfold no_break; vm_compute; no_breaks|]. split; [exact N1|split; [exact I|reflexivity]].
    + cbn [blocks_ok]. split; [unfold no_break; vm_compute; no_breaks|]. split; [reflexivity|exact I].
    + split; [constructor|split; [reflexivity|auto]].
    + split; [exact I|split; [intros _; split; [unfold no_break; vm_compute; no_breaks|reflexivity]|exact I]].
    + split; [constructor|split; [reflexivity|auto]].
Qed.
Lemma ex_ret_ok w here now tk : stmt_ok w false (fold_name false) tk opcode_list here now (ex_ins (zs "ret") [] [] [] [] []).
Proof.
  unfold ex_ins. cbn [stmt_ok]. destruct (row_first (op_of (map toupper (zs "ret"))) []) as (R1 & R2); [reflexivity|].
  split; [apply op_in; reflexivity|]. split; [exact R1|]. split; [reflexivity|]. split; [now left|]. split; [constructor|]. split; [reflexivity|]. rewrite R2. split; [constructor|]. split; [constructor|]. split; [vm_compute; discriminate|].
  split; [split; reflexivity|]. split; [constructor|]. intros [].
Qed.
Lemma ex_step wr tk now here x l now' here' : section_ok wr false (fold_name false) tk opcode_list now here x -> after wr false (fold_name false) tk now here x = Some (now', here') ->
  sections_ok wr false (fold_name false) tk opcode_list now' here' l -> sections_ok wr false (fold_name false) tk opcode_list now here (x :: l).
Proof. intros A B E. cbn [sections_ok]. rewrite B. auto. Qed.
Lemma ex_lines_ok w : lines_ok w ex_defs false false ex_chosen.
Proof.
  unfold lines_ok, ex_chosen, sections. cbn [flat_map app l_first l_more ex_equ ex_block ex_done ex_ret ex_line instructions].
  assert (S1 : Forall blank sp) by exact ex_sp.
  eapply ex_step; [|destruct (w_wrap w); vm_compute; reflexivity|].
  { split; [split; [exact S1|discriminate]|]. split; [now apply name_okb_ok|]. change (stmt_ok (w_wrap w) false (fold_name false) (defined_name false ex_defs) opcode_list 0 [(zs "size", 0)] (SEqu (zs "equ") sp (ex_at [] (ex_num (zs "2")) (zs "2") []))).
    split; [exact ex_gap|]. split; [reflexivity|]. apply ex_known2; try discriminate; reflexivity. }
  eapply ex_step; [|destruct (w_wrap w); vm_compute; reflexivity|].
  { split; [split; [exact S1|discriminate]|]. split; [exact I|]. split; [exact ex_gap|]. split; [reflexivity|]. split; [apply ex_known2; try discriminate; reflexivity|exact I]. }
  eapply ex_step; [|destruct (w_wrap w); vm_compute; reflexivity|].
  { split; [split; [exact S1|discriminate]|]. split; [now apply name_okb_ok|]. apply ex_ret_ok. }
  eapply ex_step; [|destruct (w_wrap w); vm_compute; reflexivity|exact I].
  split; [split; [exact S1|discriminate]|]. split; [exact I|]. apply ex_ret_ok.
Qed.
(** The run of this program: the branches for a defined FAST and an #else. *)
Example c32_example : forall w, w_files w (zs "in.asm") = Some (blocks_text ex_blocks) ->
  exists s, main 300 w [zs "-DFast=1"; zs "in.asm"; zs "out.bin"] = Done 0 [(zs "out.bin", [0; 0; 201; 201])] (Some s) /\ s_printed s = [].
Proof.
  intros w Hf. apply (c32_branches_partial w ex_defs false false 300 (zs "in.asm") (zs "out.bin") ExBinary (zs "out") ex_blocks ex_chosen [0; 0; 201; 201]).
  - exact ex_option.
  - vm_compute; discriminate.
  - vm_compute; discriminate.
  - exact Hf.
  - right. exists (zs "bin"). split; [reflexivity|]. split; [discriminate|]. split; [vm_compute; intuition discriminate|]. split; [reflexivity|now left].
  - exact ex_conditional.
  - apply ex_chosen_lines.
  - apply ex_lines_ok.
  - unfold bytes_of. destruct (w_wrap w); vm_compute; reflexivity.
  - vm_compute; discriminate.
  - apply Nat.leb_le. vm_compute. reflexivity.
Qed.
Example c33_example : forall w, w_files w (zs "in.asm") = Some (program_text [ex_block; ex_ret] ++ zs " #endif" ++ [10]) ->
  exists s e, main 100 w [zs "in.asm"; zs "out.bin"] = Done 3 [] (Some s) /\ s_printed s = [e] /\ e_code e = SPASM_ERR_STRAY_PREOP /\ e_warn e = false.
Proof.
  intros w Hf. apply (c33_program_partial w false false 100 (zs "in.asm") (zs "out.bin") [ex_block; ex_ret] (mkmark sp (zs "endif") no_comment) [0; 0; 201]).
  - vm_compute; discriminate.
  - vm_compute; discriminate.
  - exact Hf.
  - assert (E : forallb (fun c => negb (c =? 0)) (program_text [ex_block; ex_ret] ++ mark_text (mkmark sp (zs "endif") no_comment)) = true) by (vm_compute; reflexivity). rewrite forallb_forall in E. apply Forall_forall. intros c Hc. specialize (E c Hc). cbv beta in E. lia.
  - repeat constructor.
  - right. destruct ex_end as (N1 & N2 & N3). split; [exact ex_sp|]. split; [reflexivity|]. auto.
  - unfold lines_ok, sections. cbn [flat_map app l_first l_more ex_equ ex_block ex_done ex_ret ex_line instructions].
    eapply ex_step; [|destruct (w_wrap w); vm_compute; reflexivity|].
    { split; [split; [exact ex_sp|discriminate]|]. split; [exact I|]. split; [exact ex_gap|]. split; [reflexivity|]. split; [apply ex_known2; try discriminate; reflexivity|exact I]. }
    eapply ex_step; [|destruct (w_wrap w); vm_compute; reflexivity|exact I].
    split; [split; [exact ex_sp|discriminate]|]. split; [exact I|]. apply ex_ret_ok.
  - unfold bytes_of. destruct (w_wrap w); vm_compute; reflexivity.
  - vm_compute; discriminate.
  - apply Nat.leb_le. vm_compute. reflexivity.
Qed.
Print Assumptions c32_branches_partial.
Print Assumptions c32_same_as_chosen_partial.
Print Assumptions c32_parenthesis_refuted.
Print Assumptions c33_reported_partial.
Print Assumptions c33_program_partial.
Print Assumptions c33_left_out_refuted.
