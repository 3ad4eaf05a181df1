(** What single options mean (C73): several directories in one -I, -DNAME= without a value, a line to assemble
    given with -V, and the name of the output file when none is given. *)
From Verif Require Import Base BaseProofs State StorageModel OpcodeTables MainModel UtilsModel UtilsSpec UtilsProofs UtilsProps StorageSpec
  ParserModel ParserSpec ParserProofs Knot ExportModel ExportSpec InstrSpec MatchSpec MatchProofs MatchProps AsmSpec AsmExpand AsmProofs AsmRef AsmRun AsmProps CondProps.
From Verif Require OptionProps.
Import Coq.Strings.String.StringSyntax.
#[local] Existing Instance no_params.
#[local] Existing Instance no_calls.
#[local] Existing Instance no_frame.
#[local] Existing Instance no_consts.
Notation opt_ok := OptionProps.opt_ok.
Notation Dirs := OptionProps.Dirs.
Notation Def := OptionProps.Def.

(** ** Directories *)
Definition separator (c : Z) : Prop := c = 59 \/ c = 44.      (* ; and , *)
Definition dir_name (d : text) : Prop := d <> [] /\ Forall (fun c => ~ separator c) d.
(** Names with one or more separators between them, and any number before and after. *)
Inductive joined : text -> list text -> Prop :=
  | Joined_nil s : Forall separator s -> joined s []
  | Joined_one s d : Forall separator s -> dir_name d -> joined (s ++ d) [d]
  | Joined_cons s d c t ds : Forall separator s -> dir_name d -> separator c -> joined t ds -> joined (s ++ d ++ c :: t) (d :: ds).
Lemma split_seps s t : Forall separator s -> split_dirs [] (s ++ t) = split_dirs [] t.
Proof. induction 1 as [|c s H F IH]; [reflexivity|]. cbn [app split_dirs]. replace ((c =? 59) || (c =? 44)) with true by (unfold separator in H; lia). exact IH. Qed.
Lemma split_name d : Forall (fun c => ~ separator c) d -> forall cur t, split_dirs cur (d ++ t) = split_dirs (rev d ++ cur) t.
Proof.
  induction 1 as [|c d H F IH]; intros cur t; [reflexivity|]. cbn [app split_dirs rev]. replace ((c =? 59) || (c =? 44)) with false by (unfold separator in H; lia).
  rewrite IH, <- app_assoc. reflexivity.
Qed.
Lemma rev_cons {A} (d : list A) : d <> [] -> exists x y, rev d = x :: y.
Proof. intros H. destruct (rev d) eqn:E; [|eauto]. destruct H. now rewrite <- (rev_involutive d), E. Qed.
Lemma split_joined t ds : joined t ds -> split_dirs [] t = ds.
Proof.
  induction 1 as [s F|s d F (Nd & Hd)|s d c t ds F (Nd & Hd) Hc J IH].
  - rewrite <- (app_nil_r s). now rewrite split_seps.
  - rewrite split_seps by exact F. rewrite <- (app_nil_r d) at 1. rewrite split_name by exact Hd. rewrite app_nil_r. cbn [split_dirs]. destruct (rev_cons d Nd) as (x & y & E). rewrite E, <- E. now rewrite rev_involutive.
  - rewrite split_seps by exact F. rewrite split_name by exact Hd. rewrite app_nil_r. cbn [split_dirs]. replace ((c =? 59) || (c =? 44)) with true by (unfold separator in Hc; lia).
    destruct (rev_cons d Nd) as (x & y & E). rewrite E, <- E, rev_involutive. now rewrite IH.
Qed.
Lemma dirs_each ds : Forall dir_name ds -> OptionProps.dirs_of (map (Dirs true) ds) = ds.
Proof.
  induction 1 as [|d ds (Nd & Hd) F IH]; [reflexivity|]. cbn [map]. unfold OptionProps.dirs_of in *. cbn [flat_map]. rewrite IH.
  rewrite (split_joined d [d]); [reflexivity|]. exact (Joined_one [] d (Forall_nil _) (conj Nd Hd)).
Qed.
Lemma joined_names t ds : joined t ds -> Forall dir_name ds.
Proof. induction 1; auto. Qed.
Lemma has_app l l' c : OptionProps.has (l ++ l') c = OptionProps.has l c || OptionProps.has l' c.
Proof. unfold OptionProps.has. apply existsb_app. Qed.
Lemma dirs_app l l' : OptionProps.dirs_of (l ++ l') = OptionProps.dirs_of l ++ OptionProps.dirs_of l'.
Proof. unfold OptionProps.dirs_of. apply flat_map_app. Qed.
Lemma words_app l l' : OptionProps.words (l ++ l') = OptionProps.words l ++ OptionProps.words l'.
Proof. unfold OptionProps.words. apply flat_map_app. Qed.
(** -I with several directories is several -I. *)
Theorem c73_directories : forall fuel w l l' apart t ds, Forall opt_ok l -> Forall opt_ok l' -> (apart = true \/ t <> []) -> joined t ds -> l ++ l' <> [] ->
  main fuel w (OptionProps.command (l ++ Dirs apart t :: l')) = main fuel w (OptionProps.command (l ++ map (Dirs true) ds ++ l')).
Proof.
  intros fuel w l l' apart t ds Ol Ol' Ot J Ne. apply OptionProps.c70_order.
  - apply Forall_app. split; [exact Ol|]. now constructor.
  - apply Forall_app. split; [exact Ol|]. apply Forall_app. split; [|exact Ol']. apply Forall_map, Forall_forall. intros d _. now left.
  - intros c. rewrite <- !OptionProps.has_switched, !has_app. cbn [OptionProps.has existsb orb]. change (existsb _ l') with (OptionProps.has l' c).
    assert (E : OptionProps.has (map (Dirs true) ds) c = false) by (clear; induction ds; [reflexivity|exact IHds]). now rewrite E.
  - rewrite !dirs_app. f_equal. rewrite (dirs_each ds (joined_names t ds J)). change (OptionProps.dirs_of (Dirs apart t :: l')) with (split_dirs [] t ++ OptionProps.dirs_of l'). now rewrite (split_joined t ds J).
  - rewrite !words_app. assert (E : OptionProps.words (map (Dirs true) ds) = []) by (clear; induction ds; [reflexivity|exact IHds]). now rewrite E.
  - split; intros K; exfalso; [destruct l; discriminate|]. apply Ne. destruct l; [|discriminate]. apply app_eq_nil in K as (K1 & K2). destruct ds; [|discriminate]. exact K2.
Qed.
Example c73_directories_met : joined (zs "inc;,lib/z80,") [zs "inc"; zs "lib/z80"].
Proof.
  apply (Joined_cons [] (zs "inc") 59 (zs ",lib/z80,")); [constructor|split; [discriminate|repeat constructor; vm_compute; intuition discriminate]|now left|].
  apply (Joined_cons [44] (zs "lib/z80") 44 []); [constructor; [now right|constructor]|split; [discriminate|repeat constructor; vm_compute; intuition discriminate]|now right|].
  apply Joined_nil. constructor.
Qed.

(** ** Definitions *)
(** -DNAME= without a value is -DNAME=1. *)
Lemma define_one w a n b : name_ok n -> zlen n <= 254 -> Forall blank b -> arg_define w a (n ++ 61 :: b) = arg_define w a (n ++ 61 :: zs "1").
Proof.
  intros Hn Ln Bb. unfold arg_define, read_expr. change (zs "=") with [61].
  assert (E : forall v s, read_expr' true (n ++ 61 :: v) [61] s = Ok (mkrx true (61 :: v) n false) s) by (intros v s; unfold read_expr'; rewrite (read_name n v Hn Ln); reflexivity).
  assert (B : forall A (k : rexpr -> M A) v s, bind (read_expr' true (n ++ 61 :: v) [61]) k s = k (mkrx true (61 :: v) n false) s) by (intros A k v s; unfold bind; now rewrite E).
  rewrite !B. cbn [rx_word rx_ptr].
  assert (Sk : skip_ws b = []) by (rewrite <- (app_nil_r b); rewrite skip_ws_app by exact Bb; reflexivity).
  rewrite Sk. reflexivity.
Qed.
Lemma words_in w d d' : (forall a, arg_define w a d = arg_define w a d') -> forall l l' a,
  OptionProps.read_words w a (l ++ OptionProps.WDef d :: l') = OptionProps.read_words w a (l ++ OptionProps.WDef d' :: l').
Proof.
  intros E. induction l as [|x l IH]; intros l' a; cbn [app OptionProps.read_words].
  - now rewrite E.
  - destruct x; try apply IH. destruct (arg_define w a d0); [apply IH|reflexivity|reflexivity].
Qed.
Theorem c73_definition : forall fuel w l l' apart apart' n b, Forall opt_ok l -> Forall opt_ok l' -> name_ok n -> zlen n <= 254 -> Forall blank b ->
  main fuel w (OptionProps.command (l ++ Def apart (n ++ 61 :: b) :: l')) = main fuel w (OptionProps.command (l ++ Def apart' (n ++ 61 :: zs "1") :: l')).
Proof.
  intros fuel w l l' apart apart' n b Ol Ol' Hn Ln Bb.
  assert (O : forall ap t, Forall opt_ok (l ++ Def ap (n ++ 61 :: t) :: l')) by (intros ap t; apply Forall_app; split; [exact Ol|]; constructor; [right; now destruct n|exact Ol']).
  assert (R : read_args w args0 (OptionProps.command (l ++ Def apart (n ++ 61 :: b) :: l')) = read_args w args0 (OptionProps.command (l ++ Def apart' (n ++ 61 :: zs "1") :: l'))).
  { rewrite !OptionProps.read_is by apply O. rewrite !words_app.
    change (OptionProps.words (Def apart (n ++ 61 :: b) :: l')) with (OptionProps.WDef (n ++ 61 :: b) :: OptionProps.words l').
    change (OptionProps.words (Def apart' (n ++ 61 :: zs "1") :: l')) with (OptionProps.WDef (n ++ 61 :: zs "1") :: OptionProps.words l').
    rewrite (words_in w (n ++ 61 :: b) (n ++ 61 :: zs "1") (fun a => define_one w a n b Hn Ln Bb)).
    destruct (OptionProps.read_words w args0 _); cbn [OptionProps.on_args]; [|reflexivity|reflexivity]. f_equal. unfold OptionProps.beside.
    rewrite !dirs_app, !has_app. reflexivity. }
  unfold main. rewrite R.
  assert (X : forall ap t, exists x y, OptionProps.command (l ++ Def ap t :: l') = x :: y).
  { intros ap t. unfold OptionProps.command. rewrite flat_map_app. destruct l as [|[c m|[|] d|[|] d|[|] d|k] l0]; cbn; eauto. destruct ap; cbn; eauto. }
  destruct (X apart (n ++ 61 :: b)) as (x & y & ->), (X apart' (n ++ 61 :: zs "1")) as (x' & y' & ->). reflexivity.
Qed.
(** Without the equals sign the program reads past the end of the argument. *)
Theorem c73_definition_refuted : exists w n, name_ok n /\ forall fuel, main fuel w (OptionProps.command [Def false n; OptionProps.File (zs "in.asm")]) = Crash UB_oob.
Proof.
  exists (mkworld (fun _ => Some (zs " ret")) (fun _ => 0) [] (fun _ => []) true), (zs "DEBUG"). split; [now apply name_okb_ok|]. intros fuel. vm_compute. reflexivity.
Qed.

(** ** A line to assemble *)
Definition switches (ez80 case : bool) : list text := (if ez80 then [zs "-E"] else []) ++ (if case then [zs "-A"] else []).
Lemma read_switches w ez80 case l : read_args w args0 (switches ez80 case ++ l) = read_args w (mkargs true false false false ez80 case None None None [] None) l.
Proof. destruct ez80, case; reflexivity. Qed.
(** -V with the text of a program, without the last line break: its bytes are in the file -v.bin. *)
Theorem c73_line : forall w ez80 case fuel t p b, program_text p = t ++ [10] -> valid w ez80 case p -> result w ez80 case p = Some b -> zlen b <= 8000000 ->
  (length (program_text p) + 22 <= fuel)%nat ->
  exists s, main fuel w (switches ez80 case ++ [zs "-V"; t]) = Done 0 [(zs "-v.bin", b)] (Some s) /\ s_printed s = [] /\
    forall m, symbols_of w ez80 case p = Some m -> forall n, option_map l_value (tfind (fold_name case n) (s_labels s)) = lookup (fold_name case) m n.
Proof.
  intros w ez80 case fuel t p b Et Va Re Rm Fu.
  set (a := mkargs true false false false ez80 case (Some (zs "-v")) (Some (change_extension (zs "-v") (zs "bin"))) (Some (t ++ [10])) [] None).
  set (C := mkconf w a).
  assert (Pl : plain_name (zs "-v.bin") ExBinary (zs "-v")).
  { right. exists (zs "bin"). split; [reflexivity|]. split; [discriminate|]. split; [vm_compute; intuition discriminate|]. split; [reflexivity|now left]. }
  destruct (run_ok C eq_refl eq_refl eq_refl (init_defines (zs "-v")) [] (zs "-v") (Some (t ++ [10])) (zs "-v.bin") fuel p b ExBinary (zs "-v")) as (T & s & Sy & P & Of & Pr & Lb); auto.
  { exact (predefined_names case (zs "-v")). }
  exists s. split; [|split; [exact Pr|]].
  - unfold main. assert (Ne : exists c l, switches ez80 case ++ [zs "-V"; t] = c :: l) by (destruct ez80, case; cbn; eauto). destruct Ne as (c & l & Ne). rewrite Ne. rewrite <- Ne. rewrite read_switches.
    change (read_args w (mkargs true false false false ez80 case None None None [] None) [zs "-V"; t]) with (AGo a).
    change (run_assembly C (knot C fuel) (Some (t ++ [10])) (zs "-v.bin") (init_state ez80 (zs "-v") [] (init_defines (zs "-v"))) = Ok 0 s) in P.
    change (match run_assembly C (knot C fuel) (Some (t ++ [10])) (zs "-v.bin") (init_state ez80 (zs "-v") [] (init_defines (zs "-v"))) with
        | Ok c s => Done c (rev (s_outfiles s)) (Some s)
        | Exit c s => Done c (rev (s_outfiles s)) (Some s)
        | Undef u => Crash u
        | NoFuel => OutOfFuel
        end = Done 0 [(zs "-v.bin", b)] (Some s)). rewrite P, Of. reflexivity.
  - intros m Hm n. change (symbols_of w ez80 case p = Some T) in Sy. rewrite Sy in Hm. injection Hm as <-. exact (Lb n).
Qed.
(** ** The name of the output file *)
(** Without a second file name the output file has the name of the input file, with the extension bin. *)
Theorem c73_output_name : forall w ez80 case fuel stem ext input p b, (input = stem ++ 46 :: ext \/ (input = stem /\ ~ In 46 stem)) -> ~ In 46 ext -> stem <> [] -> hd0 stem <> 45 ->
  w_files w input = Some (program_text p) -> valid w ez80 case p -> result w ez80 case p = Some b -> zlen b <= 8000000 -> (length (program_text p) + 22 <= fuel)%nat ->
  exists s, main fuel w (switches ez80 case ++ [input]) = Done 0 [(stem ++ zs ".bin", b)] (Some s) /\ s_printed s = [].
Proof.
  intros w ez80 case fuel stem ext input p b Ei Ne Ns Hd Hf Va Re Rm Fu.
  assert (Hi : (hd0 input =? 45) = false) by (apply Z.eqb_neq; destruct Ei as [->|(-> & _)]; destruct stem; [contradiction|exact Hd|contradiction|exact Hd]).
  assert (Ce : change_extension input (zs "bin") = stem ++ zs ".bin") by (destruct Ei as [->|(-> & N0)]; [now apply c35_change_extension|now apply c35_change_extension]).
  set (a := mkargs true false false false ez80 case (Some input) None None [] None). set (C := mkconf w a).
  assert (Pl : plain_name (stem ++ zs ".bin") ExBinary stem).
  { right. exists (zs "bin"). split; [reflexivity|]. split; [exact Ns|]. split; [vm_compute; intuition discriminate|]. split; [reflexivity|now left]. }
  destruct (run_ok C eq_refl eq_refl eq_refl (init_defines input) [] input None (stem ++ zs ".bin") fuel p b ExBinary stem) as (T & s & Sy & P & Of & Pr & Lb); auto.
  { exact (predefined_names case input). }
  exists s. split; [|exact Pr].
  unfold main. assert (Nx : exists c l, switches ez80 case ++ [input] = c :: l) by (destruct ez80, case; cbn; eauto). destruct Nx as (c & l & Nx). rewrite Nx. rewrite <- Nx. rewrite read_switches.
  assert (Ra : read_args w (mkargs true false false false ez80 case None None None [] None) [input] = AGo a) by (cbn [read_args]; rewrite Hi; reflexivity). rewrite Ra.
  cbn [a a_input a_output a_defs a_line a_ez80 a_dirs]. rewrite Ce.
  change (run_assembly C (knot C fuel) None (stem ++ zs ".bin") (init_state ez80 input [] (init_defines input)) = Ok 0 s) in P.
  fold a. fold C. rewrite P, Of. reflexivity.
Qed.
(** The example of C48 given with -V and without an output name. *)
Example c73_case : exists s s', main 300 ex_world [zs "-V"; removelast (program_text ex_program)] = Done 0 [(zs "-v.bin", ex_bytes)] (Some s) /\
  main 300 ex_world [zs "prog.asm"] = Done 0 [(zs "prog.bin", ex_bytes)] (Some s').
Proof.
  assert (H1 : program_text ex_program = removelast (program_text ex_program) ++ [10]) by (vm_compute; reflexivity).
  assert (H4 : zlen ex_bytes <= 8000000) by (vm_compute; discriminate). assert (H5 : (length (program_text ex_program) + 22 <= 300)%nat) by (vm_compute; lia).
  destruct (c73_line ex_world false false 300 _ _ _ H1 (ex_valid _) (ex_result _) H4 H5) as (s & P & _).
  assert (F : w_files ex_world (zs "prog.asm") = Some (program_text ex_program)) by (vm_compute; reflexivity).
  destruct (c73_output_name ex_world false false 300 (zs "prog") (zs "asm") (zs "prog.asm") _ _ (or_introl eq_refl) ltac:(vm_compute; intuition discriminate) ltac:(discriminate) ltac:(discriminate) F (ex_valid _) (ex_result _) H4 H5) as (s' & P' & _).
  exists s, s'. split; [exact P|exact P'].
Qed.
Print Assumptions c73_directories.
Print Assumptions c73_definition.
Print Assumptions c73_line.
Print Assumptions c73_output_name.
