(** The order of the options on the command line (C70). *)
From Verif Require Import Base State ExportModel UtilsModel StorageModel PreopModel PassOneModel MainModel Knot Programs.
Import Coq.Strings.String.StringSyntax.

(** ** Arguments *)
(** A letter that switches something on, with whatever follows it; directories, a definition or a
    line to assemble, in the same argument or in the next one; the name of a file. *)
Inductive opt := Switch (letter : Z) (more : text) | Dirs (apart : bool) (d : text) | Def (apart : bool) (d : text) | Code (apart : bool) (d : text) | File (n : text).
Definition with_operand (c : Z) (apart : bool) (d : text) : list text := if apart then [[45; c]; d] else [45 :: c :: d].
Definition opt_text (o : opt) : list text :=
  match o with
  | Switch c more => [45 :: c :: more]
  | Dirs b d => with_operand 73 b d
  | Def b d => with_operand 68 b d
  | Code b d => with_operand 86 b d
  | File n => [n]
  end.
Definition opt_ok (o : opt) : Prop :=
  match o with
  | Switch c _ => In c (zs "OTCLSNEA")
  | Dirs b d | Def b d | Code b d => b = true \/ d <> []
  | File n => match n with c :: _ => c <> 45 | [] => True end
  end.
Definition command (l : list opt) : list text := flat_map opt_text l.

(** What counts: which switches there are, the directories in order, and the rest in order. *)
Definition switched (l : list opt) (c : Z) : Prop := exists more, In (Switch c more) l.
Definition dirs_of (l : list opt) : list text := flat_map (fun o => match o with Dirs _ d => split_dirs [] d | _ => [] end) l.
Inductive word := WDef (d : text) | WCode (d : text) | WFile (n : text).
Definition words (l : list opt) : list word :=
  flat_map (fun o => match o with Def _ d => [WDef d] | Code _ d => [WCode d] | File n => [WFile n] | _ => [] end) l.

(** ** What the arguments are read as *)
Definition has (l : list opt) (c : Z) : bool := existsb (fun o => match o with Switch c' _ => c' =? c | _ => false end) l.
Lemma has_switched l c : has l c = true <-> switched l c.
Proof.
  unfold has, switched. rewrite existsb_exists. split.
  - intros (o & I & E). destruct o; try discriminate. apply Z.eqb_eq in E. subst. eauto.
  - intros (m & I). exists (Switch c m). split; [exact I|apply Z.eqb_refl].
Qed.
(** The words, read on their own. *)
Fixpoint read_words (w : world) (a : args) (l : list word) : argres :=
  match l with
  | [] => AGo a
  | WDef d :: l' => match arg_define w a d with AGo a => read_words w a l' | r => r end
  | WCode d :: l' => read_words w (mkargs (a_normal a) (a_list a) (a_counter a) (a_symtable a) (a_ez80 a) (a_case a)
      (Some (zs "-v")) (Some (change_extension (zs "-v") (zs "bin"))) (Some (d ++ [10])) (a_dirs a) (a_defs a)) l'
  | WFile n :: l' => read_words w (match a_input a, a_output a with
      | None, _ => mkargs (a_normal a) (a_list a) (a_counter a) (a_symtable a) (a_ez80 a) (a_case a) (Some n) (a_output a) (a_line a) (a_dirs a) (a_defs a)
      | Some _, None => mkargs (a_normal a) (a_list a) (a_counter a) (a_symtable a) (a_ez80 a) (a_case a) (a_input a) (Some n) (a_line a) (a_dirs a) (a_defs a)
      | _, _ => a end) l'
  end.
(** Switches and directories beside them. *)
Definition beside (l : list opt) (a : args) : args :=
  mkargs (a_normal a && negb (has l 79)) (a_list a || has l 84) (a_counter a || has l 67) (a_symtable a || has l 76) (a_ez80 a || has l 69) (a_case a || has l 65)
    (a_input a) (a_output a) (a_line a) (a_dirs a ++ dirs_of l) (a_defs a).
Definition on_args (f : args -> args) (r : argres) : argres := match r with AGo a => AGo (f a) | _ => r end.
Lemma define_beside w l a p : arg_define w (beside l a) p = on_args (beside l) (arg_define w a p).
Proof. unfold arg_define. cbn [beside a_defs curr_file a_input]. change (curr_file (beside l a)) with (curr_file a). destruct (bind _ _ _); reflexivity. Qed.
Lemma beside_nil a : beside [] a = a.
Proof. destruct a. unfold beside, dirs_of. cbn. now rewrite app_nil_r, !Bool.andb_true_r, !Bool.orb_false_r. Qed.
Lemma beside_cons o l a : beside (o :: l) a = beside l (beside [o] a).
Proof. destruct a. unfold beside, dirs_of, has. cbn. rewrite ?Bool.orb_false_r, ?Bool.negb_orb, ?Bool.andb_assoc, ?Bool.orb_assoc, app_nil_r, app_assoc. reflexivity. Qed.
Lemma words_beside w l l0 : forall a, read_words w (beside l a) l0 = on_args (beside l) (read_words w a l0).
Proof.
  induction l0 as [|x l0 IH]; intros a; [reflexivity|]. destruct x as [d|d|n]; cbn [read_words].
  - rewrite define_beside. destruct (arg_define w a d) as [a'|c|u]; cbn [on_args]; [apply IH|reflexivity|reflexivity].
  - rewrite <- IH. reflexivity.
  - rewrite <- IH. cbn [beside a_input a_output]. destruct (a_input a), (a_output a); reflexivity.
Qed.
Lemma read_is w l : Forall opt_ok l -> forall a, read_args w a (command l) = on_args (beside l) (read_words w a (words l)).
Proof.
  induction 1 as [|o l Oo Ol IH]; intros a.
  { cbn [command flat_map read_args words read_words on_args]. now rewrite beside_nil. }
  assert (W : forall b, read_args w (beside [o] b) (command l) = on_args (beside (o :: l)) (read_words w b (words l))).
  { intros b. rewrite IH, words_beside. destruct (read_words w b (words l)); cbn [on_args]; [now rewrite (beside_cons o l)|reflexivity|reflexivity]. }
  change (command (o :: l)) with (opt_text o ++ command l). destruct o as [c more|b d|b d|b d|n].
  - change (words (Switch c more :: l)) with (words l). rewrite <- W. clear W IH. cbn in Oo.
    assert (E : forall x : text, skipn 0 x = x) by reflexivity.
    destruct a. unfold beside, dirs_of, has. cbn [flat_map existsb app opt_text]. rewrite app_nil_r. cbn.
    intuition subst; cbn [read_args hd0 hd1 hd nth Z.eqb Pos.eqb orb andb negb]; rewrite ?Bool.orb_false_r, ?Bool.orb_true_r, ?Bool.andb_false_r, ?Bool.andb_true_r; reflexivity.
  - change (words (Dirs b d :: l)) with (words l). rewrite <- W. destruct a. unfold beside, dirs_of, has. cbn [flat_map existsb app opt_text]. rewrite app_nil_r. cbn.
    rewrite ?Bool.orb_false_r, ?Bool.andb_true_r. destruct b; cbn [with_operand app]; [reflexivity|]. destruct Oo as [|Oo]; [discriminate|]. destruct d; [contradiction|]. reflexivity.
  - change (words (Def b d :: l)) with (WDef d :: words l). cbn [read_words].
    assert (Hb : forall a', beside [Def b d] a' = a') by (intros []; unfold beside, dirs_of; cbn; now rewrite app_nil_r, !Bool.andb_true_r, !Bool.orb_false_r).
    assert (K : read_args w a (opt_text (Def b d) ++ command l) = match arg_define w a d with AGo a => read_args w a (command l) | r => r end).
    { destruct b; cbn [opt_text with_operand app]; [reflexivity|]. destruct Oo as [|Oo]; [discriminate|]. destruct d; [contradiction|]. reflexivity. }
    rewrite K. destruct (arg_define w a d) as [a'|c|u]; cbn [on_args]; [|reflexivity|reflexivity]. rewrite <- W, Hb. reflexivity.
  - change (words (Code b d :: l)) with (WCode d :: words l). cbn [read_words]. rewrite <- W.
    destruct b; cbn [opt_text with_operand app].
    + destruct a. unfold beside, dirs_of, has. cbn. rewrite ?Bool.orb_false_r, ?Bool.andb_true_r, ?app_nil_r. reflexivity.
    + destruct Oo as [|Oo]; [discriminate|]. destruct d; [contradiction|]. destruct a. unfold beside, dirs_of, has. cbn. rewrite ?Bool.orb_false_r, ?Bool.andb_true_r, ?app_nil_r. reflexivity.
  - change (words (File n :: l)) with (WFile n :: words l). cbn [read_words]. rewrite <- W. cbn [opt_text app].
    assert (Hn : (hd0 n =? 45) = false) by (destruct n; [reflexivity|apply Z.eqb_neq; exact Oo]). cbn [read_args]. rewrite Hn.
    destruct a as [? ? ? ? ? ? [i|] [o|] ? ? ?]; unfold beside, dirs_of, has; cbn; rewrite ?Bool.orb_false_r, ?Bool.andb_true_r, ?app_nil_r; reflexivity.
Qed.

(** * C70 *)
Theorem c70_order : forall fuel w l l', Forall opt_ok l -> Forall opt_ok l' -> (forall c, switched l c <-> switched l' c) -> dirs_of l = dirs_of l' -> words l = words l' ->
  (l = [] <-> l' = []) -> main fuel w (command l) = main fuel w (command l').
Proof.
  intros fuel w l l' O1 O2 Sw Di Wo Nn.
  assert (R : read_args w args0 (command l) = read_args w args0 (command l')).
  { rewrite (read_is w l O1), (read_is w l' O2), <- Wo. assert (H : forall c, has l c = has l' c).
    { intros c. pose proof (Sw c) as S0. rewrite <- !has_switched in S0. destruct (has l c), (has l' c); intuition congruence. }
    destruct (read_words w args0 (words l)); cbn [on_args]; [|reflexivity|reflexivity]. unfold beside. now rewrite !H, Di. }
  unfold main. rewrite R. destruct l as [|o l].
  - destruct Nn as (-> & _); auto.
  - destruct l' as [|o' l']; [destruct Nn as (_ & N); discriminate (N eq_refl)|].
    assert (X : forall o l, exists x y, command (o :: l) = x :: y) by (intros [c m|[|] d|[|] d|[|] d|n] l0; cbn; eauto).
    destruct (X o l) as (x & y & ->), (X o' l') as (x' & y' & ->). reflexivity.
Qed.
(** The same with directories in one argument or in several, switches first or last. *)
Example c70_example : forall fuel w, main fuel w [zs "-T"; zs "-I"; zs "a;b"; zs "-DX=1"; zs "in.asm"; zs "-E"; zs "out.8xp"; zs "-A"] =
  main fuel w [zs "-AE"; zs "-D"; zs "X=1"; zs "-Ia"; zs "in.asm"; zs "out.8xp"; zs "-A"; zs "-Ib"; zs "-E"; zs "-T"].
Proof.
  intros fuel w. apply (c70_order fuel w [Switch 84 []; Dirs true (zs "a;b"); Def false (zs "X=1"); File (zs "in.asm"); Switch 69 []; File (zs "out.8xp"); Switch 65 []]
    [Switch 65 (zs "E"); Def true (zs "X=1"); Dirs false (zs "a"); File (zs "in.asm"); File (zs "out.8xp"); Switch 65 []; Dirs false (zs "b"); Switch 69 []; Switch 84 []]).
  - repeat constructor; vm_compute; intuition discriminate.
  - repeat constructor; vm_compute; intuition discriminate.
  - intros c. rewrite <- !has_switched. unfold has. cbn [existsb]. rewrite !Bool.orb_true_iff. intuition.
  - reflexivity.
  - reflexivity.
  - split; discriminate.
Qed.
Print Assumptions c70_order.
