(** Calls of macros run as the reference assembler says. *)
From Verif Require Import Base BaseProofs State MonadProofs UtilsModel ErrorsModel StorageModel ParserModel PassTwoModel
  PreopModel PassOneModel DirectiveModel Knot OpcodeTables UtilsSpec UtilsProofs UtilsProps StorageProofs PassTwoSpec PassTwoProofs
  ParserSpec ParserProofs ParserProps StringProps DefineProofs SubstProps InstrSpec InstrProps MatchSpec MatchProps AsmSpec AsmExpand AsmProofs AsmData AsmInstr AsmLine
  CondSpec CondSkip CondRun MacroSpec BitmapModel AsmRun MainModel.
From Verif Require IncludeProps.

(** ** Frames *)
Lemma find_fresh (id : nat) (fr : list (nat * list (text * define))) id0 : Forall (fun x => fst x <> id) fr -> find_set id0 fr <> None -> id0 <> id.
Proof.
  intros F. induction F as [|(i, t) fr H F IH]; [intros X; now destruct X|]. cbn [find_set fst] in *. destruct (Nat.eqb_spec i id0) as [->|]; auto.
Qed.
Lemma arg_push fr id t : Forall (fun x => fst x <> id) fr -> forall r v, @arg_is fr r v -> @arg_is ((id, t) :: fr) r v.
Proof.
  intros F r v (d & E & H). exists d. split; [|exact H]. destruct r as [g|id0 k]; [discriminate E|]. unfold frame in *; cbn [find_set] in *.
  destruct (Nat.eqb_spec id id0) as [<-|]; [|exact E]. exfalso. destruct (find_set id fr) eqn:Q; [|discriminate].
  apply (find_fresh id fr id F); [congruence|reflexivity].
Qed.
Lemma find_arg_in k fr id0 k' : find_arg k fr = Some (RL id0 k') -> exists t, In (id0, t) fr.
Proof.
  induction fr as [|(i, t) fr IH]; [discriminate|]. cbn [find_arg]. destruct (tfind k t); [intros E; injection E as <- <-; exists t; now left|].
  intros E. destruct (IH E) as (t0 & I). exists t0. now right.
Qed.
Lemma frame_push C (P : Params) (Cs : Consts) fr id : Forall (fun x => fst x <> id) fr -> @frame_ok P fr Cs C -> @frame_ok P ((id, []) :: fr) Cs C.
Proof.
  intros F H n. specialize (H n). unfold frame in *; cbn [find_arg tfind] in *. destruct (find_arg (key C n) fr) as [r|]; [|exact H].
  destruct H as ((v & H1 & H2) & H3). split; [|exact H3]. exists v. split; [exact H1|]. now apply arg_push.
Qed.
Lemma frame_add C (P : Params) (Cs : Consts) fr id t n v d : assoc (key C) Cs n = None -> Forall (fun x => fst x <> id) fr -> @frame_ok P ((id, t) :: fr) Cs C ->
  d_args d = [] -> d_contents d = Some (hex_text v) -> -2147483647 <= v <= 2147483647 ->
  @frame_ok ((n, v) :: P) ((id, tset (key C n) d t) :: fr) Cs C.
Proof.
  intros Nc F H Da Dc B m. specialize (H m). unfold params in *. unfold frame in *; cbn [find_arg] in *. rewrite tfind_tset.
  destruct (eqbl (key C m) (key C n)) eqn:E.
  - apply eqbl_eq in E. split; [|rewrite <- Nc; now apply assoc_key]. exists v. rewrite assoc_cons, E, eqbl_refl. split; [reflexivity|]. exists d. unfold frame; cbn [find_set]. rewrite Nat.eqb_refl, tfind_tset_same. auto.
  - rewrite assoc_cons, E.
    destruct (tfind (key C m) t) as [d0|] eqn:Q.
    + destruct H as ((w & H1 & d1 & H2 & H3) & H4). split; [|exact H4]. exists w. split; [exact H1|]. exists d1. split; [|exact H3].
      unfold frame in *; cbn [find_set] in *. rewrite Nat.eqb_refl in *. rewrite tfind_tset, E. exact H2.
    + destruct (find_arg (key C m) fr) as [r|] eqn:Qa; [|exact H]. destruct H as ((w & H1 & d1 & H2 & H3) & H4). split; [|exact H4]. exists w. split; [exact H1|]. exists d1. split; [|exact H3].
      destruct r as [g|id0 k]; [discriminate H2|]. unfold frame in *; cbn [find_set] in *. destruct (Nat.eqb_spec id id0) as [<-|]; [|exact H2].
      exfalso. apply find_arg_in in Qa as (t0 & I). rewrite Forall_forall in F. now apply (F _ I).
Qed.

(** ** Arguments *)
Lemma key_ci C a b : key C a = key C b -> eqbl_ci a b = true.
Proof.
  assert (R : forall x, eqbl_ci x x = true) by (intros x; induction x as [|c u IH]; [reflexivity|]; cbn; now rewrite Z.eqb_refl, IH).
  unfold key. destruct (c_case C); [intros ->; apply R|]. revert b. induction a as [|c a IH]; intros [|d b] E; try discriminate; [reflexivity|].
  cbn in E. injection E as E1 E2. cbn [eqbl_ci]. rewrite (IH b E2), andb_true_r.
  unfold toupper, tolower, isupper, islower in *. repeat match goal with H : context [if ?b then _ else _] |- _ => destruct b eqn:? | |- context [if ?b then _ else _] => destruct b eqn:? end; lia.
Qed.
Lemma val_same (P Q : Params) wraps fold here t e : (forall n, In n (names_of e) -> assoc fold P n = assoc fold Q n) ->
  val (P := P) wraps fold here t e = val (P := Q) wraps fold here t e.
Proof.
  intros H. unfold val. rewrite (proj2 (value_names wraps here (lookup (P := P) fold t) (lookup (P := Q) fold t)) e); [reflexivity|].
  apply Forall_forall. intros n I. unfold lookup, params. now rewrite (H n I).
Qed.

Lemma rooted_abs n : is_abs_path n = rooted n.
Proof.
  unfold is_abs_path. induction n as [|c r IH]; [reflexivity|]. cbn [skip_ws rooted].
  assert (B : is_blank c = (c =? 32) || (c =? 9) || (c =? 11) || (c =? 12)).
  { unfold is_blank, isspace. destruct (Z.eqb_spec c 32), (Z.eqb_spec c 9), (Z.eqb_spec c 11), (Z.eqb_spec c 12), (Z.eqb_spec c 10), (Z.eqb_spec c 13), (Z.leb_spec 9 c), (Z.leb_spec c 13); cbn; try reflexivity; lia. }
  rewrite B. destruct (_ || (c =? 12)); [exact IH|]. cbn [hd0]. unfold within, isalpha, isupper, islower.
  f_equal. destruct r as [|d r]; [cbn; now rewrite andb_false_r|]. change (Nat.leb 2 (length (c :: d :: r))) with true. cbn [hd1 andb]. apply andb_comm.
Qed.
Lemma home_dir cwd input : input_dir cwd input = home cwd input.
Proof.
  unfold input_dir, home. rewrite rooted_abs. destruct (rooted input); [|reflexivity]. assert (E : forall t, dir_of t = cut_slash t) by (induction t as [|c t IH]; cbn; [|rewrite IH]; reflexivity).
  destruct input as [|c r]; [reflexivity|]. cbn [cut_slash]. rewrite E. destruct (cut_slash r); [reflexivity|]. destruct ((c =? 47) || (c =? 92)); reflexivity.
Qed.

Section MacroCalls.
Context {dr : Dirs} {Cs : Consts}.
Variable C : cfg.
Variable D : list (text * define).
Variable ops : list opcode.
Hypothesis normal : c_normal C = true.
Hypothesis no_counter : c_counter C = false.
Hypothesis D_names : forall w, ~ name_start (hd0 w) -> tfind (key C w) D = None.
Hypothesis D_full : forall k d, tfind k D = Some d -> d_contents d <> None.
Variable n2 : nat.
Hypothesis deep2 : (20 <= n2)%nat.
Hypothesis known_table : ops = opcode_list \/ ops = opcode_list_ez80.
Notation taken := (taken C D).

Lemma eval_known (P : Params) (fr : Frame) (lv : Level) m k now here out q s w v : (20 <= m)%nat -> 1 <= k -> core C D ops k now s -> at_ here out q s ->
  written_ok (P := P) w -> forallb (usable (P := P) (key C) taken) (names_of (w_expr w)) = true ->
  val (P := P) (c_wrap C) (key C) here now (w_expr w) = Some v -> -2147483647 <= v <= 2147483647 ->
  exists s1, f_eval (knot C (S m)) (w_text w) s = Ok (hex_text v) s1 /\ core C D ops k now s1 /\ at_ here out q s1 /\ s_depth s1 = 0.
Proof.
  intros Hm K1 K A (B1 & W & B2 & N & _) F V B.
  assert (K' : core C D ops (k + 1) now (set_sess (k + 1) s)).
  { pose proof (k_errs _ _ _ _ _ _ K) as Ke. destruct K; constructor; try assumption; [reflexivity|]. now apply errs_up. }
  pose proof (parse_known C D ops D_names m Hm (k + 1) now _ (w_expr w) (w_text w) [] [] [] v K' F W N (Forall_nil _) (Forall_nil _) (or_introl eq_refl)) as E.
  cbn [app] in E. rewrite app_nil_r in E. rewrite <- (k_sess _ _ _ _ _ _ K) in E.
  rewrite (eval_is C m (w_text w) s v _ (E ltac:(cbn; now rewrite (a_pc _ _ _ _ A)))).
  - eexists. split; [reflexivity|]. split.
    + pose proof (k_errs _ _ _ _ _ _ K) as Ke. pose proof (k_sess _ _ _ _ _ _ K) as Ks. destruct K; constructor; try assumption.
      * cbn. lia.
      * cbn. rewrite Ks, (unlead_le k); [exact Ke|now apply errs_all].
    + split; [destruct A; constructor; assumption|reflexivity].
  - unfold is_int. lia.
  - unfold negatable. lia.
  - rewrite (k_sess _ _ _ _ _ _ K). lia.
Qed.

Lemma name_hd n : name_ok n -> (hd0 n =? 64) = false.
Proof. intros (_ & (c & t & -> & H) & _). cbn [hd0]. unfold name_start in H. lia. Qed.
Lemma written_weak (P Q : Params) w : written_ok (P := P) w -> nest (w_expr w) <= 14 -> written_ok (P := Q) w.
Proof. intros (A & B & E & _ & G) N. repeat (split; [assumption|]). split; [|exact G]. unfold nest_limit. destruct (params (Params := Q)); lia. Qed.
Lemma core_arg (P : Params) fr id t k now s n v ln f : @core P ((id, t) :: fr) Cs C D ops k now s -> name_ok n -> assoc (key C) consts n = None -> Forall (fun x => fst x <> id) fr ->
  -2147483647 <= v <= 2147483647 ->
  @core ((n, v) :: P) ((id, tset (key C n) (mkdefine (key C n) ln f (Some (hex_text v)) []) t) :: fr) Cs C D ops k now
    (set_args ((id, tset (key C n) (mkdefine (key C n) ln f (Some (hex_text v)) []) t) :: fr) s).
Proof.
  intros K N Nc F B. pose proof (k_frame _ _ _ _ _ _ K) as Kf. pose proof (k_pnames _ _ _ _ _ _ K) as Kp. pose proof (k_ids _ _ _ _ _ _ K) as Ki.
  destruct K. constructor; try assumption.
  - reflexivity.
  - unfold frame in *. inversion Ki; subst. constructor; assumption.
  - now apply frame_add.
  - intros w Nw. unfold params in *. rewrite assoc_cons. rewrite (Kp w Nw). destruct (eqbl (key C w) (key C n)) eqn:E; [|reflexivity].
    exfalso. apply Nw. apply eqbl_eq in E. clear - N E. destruct N as (_ & (c & u & -> & H) & _). unfold key in E. destruct (c_case C); [now subst|].
    destruct w as [|d w]; [discriminate|]. cbn in E. injection E as E _. cbn [hd0]. unfold name_start in *. unfold toupper, islower in E.
    repeat match goal with H : context [if ?b then _ else _] |- _ => destruct b eqn:? end; lia.
Qed.
Definition same_on (P Q : Params) (w : written) : Prop := forall n, In n (names_of (w_expr w)) -> assoc (key C) P n = assoc (key C) Q n.
Lemma args_step (P : Params) (fr : list (nat * list (text * define))) (lv : Level) m k now here out q r d id rest : (20 <= m)%nat -> 1 <= k ->
  (match r with RG x => tfind x D | RL _ _ => None end) = Some d -> Forall (fun x => fst x <> id) fr ->
  forall names args done (Pi P' : Params) t s f expecting,
  d_args d = done ++ names -> Forall name_ok names -> Forall (fun n => assoc (key C) consts n = None) names -> Forall (fun w => known_ok (P := P) (key C) taken w /\ nest (w_expr w) <= 14) args ->
  Forall (same_on Pi P) args -> apart (key C) names args = true ->
  bind_args (c_wrap C) (key C) P now here names args Pi = Some P' -> (args = [] -> expecting = false) -> (length args < f)%nat ->
  @core Pi ((id, t) :: fr) Cs C D ops k now s -> at_ here out q s ->
  exists t' s', parse_args_loop C (knot C (S m)) f r id (length done) expecting (args_text args ++ 41 :: rest) s = Ok (41 :: rest, length (d_args d)) s' /\
    @core P' ((id, t') :: fr) Cs C D ops k now s' /\ at_ here out q s' /\ (s_depth s' = s_depth s \/ s_depth s' = 0).
Proof.
  intros Hm K1 Hd F. induction names as [|n names IH]; intros args done Pi P' t s f expecting Ed On Oc Oa Sm Ap Bi Ex Lf K A.
  - destruct args as [|w args]; [|discriminate]. injection Bi as <-. destruct f as [|f]; [cbn in Lf; lia|]. exists t, s. split; [|auto].
    cbn [parse_args_loop args_text app]. rewrite (Ex eq_refl).
    rewrite (bind_ok _ _ _ _ _ (extract_none (41 :: rest) s ltac:(right; exists 41, rest; auto))). rewrite Ed, app_nil_r. reflexivity.
  - destruct args as [|w args]; [discriminate|]. cbn [bind_args] in Bi. destruct (val _ _ _ _ _) as [v|] eqn:V; [|discriminate].
    destruct (within _ v _) eqn:B; [|discriminate]. unfold within in B. inversion On as [|? ? On1 On2]; subst. inversion Oc as [|? ? Oc1 Oc2]; subst. inversion Oa as [|? ? ((Ow & Fr) & Nw) Oa2]; subst. inversion Sm as [|? ? Sm1 Sm2]; subst.
    cbn [apart] in Ap. apply andb_true_iff in Ap as (Ap1 & Ap2).
    destruct f as [|f]; [lia|]. cbn [parse_args_loop].
    set (u := match args with [] => 41 :: rest | _ => 44 :: args_text args ++ 41 :: rest end).
    assert (Et : args_text (w :: args) ++ 41 :: rest = w_before w ++ w_text w ++ w_after w ++ u).
    { unfold u. destruct args; cbn [args_text]; unfold wr; rewrite <- !app_assoc; reflexivity. }
    destruct (written_operand [44] w (or_intror eq_refl) Ow) as (l & El & Ol).
    assert (Eu : hd0 u = 44 /\ tl u = args_text args ++ 41 :: rest /\ args <> [] \/ u = 41 :: rest /\ args = []) by (unfold u; destruct args; [right; auto|left; split; [reflexivity|split; [reflexivity|discriminate]]]).
    assert (Ee : extract_arg (args_text (w :: args) ++ 41 :: rest) expecting s = Ok (Some (w_text w), if hd0 u =? 44 then tl u else u, hd0 u =? 44) s).
    { rewrite Et, <- El. apply (extract_operand _ u expecting s Ol). unfold u. destruct args; [right; right; exists 41, rest; auto|left; eexists; reflexivity]. }
    rewrite (bind_ok _ _ _ _ _ Ee).
    assert (Eg : get_define r s = Ok d s). { unfold get_define. destruct r as [x|]; [|discriminate]. cbn [lookup_ref]. now rewrite (k_defines _ _ _ _ _ _ K), Hd. }
    rewrite (bind_ok _ _ _ _ _ Eg). rewrite Ed, nth_error_app2, Nat.sub_diag by lia. cbn [nth_error]. rewrite (name_hd n On1).
    destruct (eval_known Pi ((id, t) :: fr) lv m k now here out q s w v Hm K1 K A) as (s1 & E1 & Kc1 & A1 & D1); auto.
    { exact (written_weak P Pi w Ow Nw). }
    { rewrite forallb_forall in *. intros x Hx. specialize (Fr x Hx). unfold usable in *. specialize (Sm1 x Hx). unfold params in *. now rewrite Sm1. }
    { rewrite <- V. now apply val_same. }
    { lia. }
    rewrite (bind_ok _ _ _ _ _ E1).
    assert (E2 : add_arg C n (Some (hex_text v)) id s1 = Ok tt (set_args ((id, tset (key C n) (mkdefine (key C n) (s_line s1) (s_file s1) (Some (hex_text v)) []) t) :: fr) s1)).
    { unfold add_arg. rewrite !bind_get. rewrite (k_args _ _ _ _ _ _ Kc1). unfold frame. cbn [find_set put_set]. rewrite Nat.eqb_refl. reflexivity. }
    rewrite (bind_ok _ _ _ _ _ E2).
    pose proof (core_arg Pi fr id t k now s1 n v (s_line s1) (s_file s1) Kc1 On1 Oc1 F ltac:(lia)) as K2.
    replace (if hd0 u =? 44 then tl u else u) with (args_text args ++ 41 :: rest).
    2:{ destruct Eu as [(-> & -> & _)|(-> & ->)]; reflexivity. }
    set (t2 := tset (key C n) _ t) in *. set (s2 := set_args _ s1) in *.
    destruct (IH args (done ++ [n]) ((n, v) :: Pi) P' t2 s2 f (hd0 u =? 44)) as (t' & s' & Er & K' & A' & D'); auto.
    + now rewrite <- app_assoc.
    + rewrite forallb_forall in Ap1. rewrite Forall_forall in *. intros x Ix y Iy. rewrite assoc_cons. specialize (Ap1 x Ix). rewrite forallb_forall in Ap1. specialize (Ap1 y Iy).
      apply negb_true_iff in Ap1. rewrite Ap1. now apply (Sm2 x Ix).
    + intros ->. destruct Eu as [(_ & _ & X)|(-> & _)]; [congruence|reflexivity].
    + cbn [length] in Lf. lia.
    + destruct A1; constructor; assumption.
    + exists t', s'. split; [|split; [exact K'|split; [exact A'|right; destruct D' as [D'|D']; [rewrite D'; exact D1|exact D']]]]. rewrite <- Ed, <- Er. now rewrite app_length, Nat.add_1_r.
Qed.

Lemma skip_ws_twice p : skip_ws (skip_ws p) = skip_ws p.
Proof. induction p as [|c p IH]; [reflexivity|]. cbn [skip_ws]. destruct (is_blank c) eqn:E; [exact IH|]. cbn [skip_ws]. now rewrite E. Qed.
Lemma loop_ws R f r id num e p s : parse_args_loop C R f r id num e (skip_ws p) s = parse_args_loop C R f r id num e p s.
Proof.
  destruct f as [|f]; [reflexivity|]. cbn [parse_args_loop].
  assert (E : extract_arg (skip_ws p) e = extract_arg p e) by (unfold extract_arg, read_expr, read_expr', read_expr_gen; now rewrite skip_ws_twice).
  now rewrite E.
Qed.
Lemma written_first (P : Params) w : written_ok (P := P) w -> exists c t, w_text w = c :: t /\ ~ blank c /\ ~ line_ender c /\ c <> 41.
Proof.
  intros O. destruct (written_operand [44] w (or_intror eq_refl) O) as (l & El & (_ & _ & Hp & (c & t & E & Nb) & _)).
  unfold operand_text in E. cbn [o_body] in *. rewrite <- El. exists c, t. split; [exact E|]. split; [exact Nb|].
  destruct l as [|q l]; [discriminate|]. inversion Hp as [|? ? Hq _]; subst. unfold pieces_text in E. cbn [flat_map] in E.
  inversion Hq; subst; cbn [piece_text app] in E; injection E; intros; subst; unfold line_ender, bracket in *; try lia.
Qed.
Lemma args_len (P : Params) l : Forall (fun w => written_ok (P := P) w) l -> (length l <= length (args_text l))%nat.
Proof.
  induction 1 as [|w l O F IH]; [reflexivity|]. destruct (written_first P w O) as (c & t & E & _). cbn [args_text length].
  assert (L : (1 <= length (wr w))%nat) by (unfold wr; rewrite E, !app_length; cbn [length]; lia). destruct l as [|w2 l]; [exact L|].
  rewrite app_length. cbn [length] in *. lia.
Qed.
Definition args_part (y : call) : text := match y_args y with Some l => 40 :: args_text l ++ [41] | None => [] end.
Lemma ids_fresh (fr : list (nat * list (text * define))) id : Forall (fun x => (fst x < id)%nat) fr -> Forall (fun x => fst x <> id) fr.
Proof. intros F. eapply Forall_impl; [|exact F]. intros x H. cbn in H. lia. Qed.
Lemma parse_args_run (P P' : Params) (fr : list (nat * list (text * define))) (lv : Level) m k now here out q s y r d rest : (20 <= m)%nat -> 1 <= k ->
  (match r with RG x => tfind x D | RL _ _ => None end) = Some d -> Forall name_ok (d_args d) -> Forall (fun n => assoc (key C) consts n = None) (d_args d) ->
  Forall (fun w => known_ok (P := P) (key C) taken w /\ nest (w_expr w) <= 14) (call_args y) -> apart (key C) (d_args d) (call_args y) = true ->
  bind_args (c_wrap C) (key C) P now here (d_args d) (call_args y) P = Some P' -> (hd0 rest =? 40) = false ->
  @core P fr Cs C D ops k now s -> at_ here out q s ->
  exists ids fr' s', parse_args C (knot C (S m)) (args_part y ++ rest) r s = Ok (rest, ids) s' /\ @core P' fr' Cs C D ops k now s' /\ at_ here out q s' /\
    match ids with None => P' = P /\ fr' = fr | Some id => exists t, fr' = (id, t) :: fr end /\ (s_depth s' = s_depth s \/ s_depth s' = 0).
Proof.
  intros Hm K1 Hd On Oc Oa Ap Bi Nr K A. unfold parse_args.
  assert (Eg : forall s1 P1 fr1, @core P1 fr1 Cs C D ops k now s1 -> get_define r s1 = Ok d s1).
  { intros s1 P1 fr1 H. unfold get_define. destruct r as [x|]; [|discriminate]. cbn [lookup_ref]. now rewrite (k_defines _ _ _ _ _ _ H), Hd. }
  rewrite (bind_ok _ _ _ _ _ (Eg s P fr K)). unfold args_part, call_args in *. destruct (y_args y) as [l|].
  - cbn [app hd0]. change (40 =? 40) with true. cbn [negb andb].
    set (id := s_nextid s). set (s1 := set_nextid (S id) (set_args ((id, []) :: fr) s)).
    assert (E1 : add_arg_set s = Ok id s1). { unfold add_arg_set. rewrite !bind_get, !bind_upd. rewrite (k_args _ _ _ _ _ _ K). reflexivity. }
    rewrite (bind_ok _ _ _ _ _ E1). pose proof (ids_fresh fr id (k_ids _ _ _ _ _ _ K)) as Fi.
    assert (Kc1 : @core P ((id, []) :: fr) Cs C D ops k now s1).
    { pose proof (k_frame _ _ _ _ _ _ K) as Kf. pose proof (k_ids _ _ _ _ _ _ K) as Ki. destruct K; constructor; try assumption; [reflexivity| |now apply frame_push].
      unfold frame in *. constructor; [cbn; lia|]. eapply Forall_impl; [|exact Ki]. intros x Hx. cbn in *. lia. }
    assert (A1 : at_ here out q s1) by (destruct A; constructor; assumption).
    rewrite <- app_assoc. cbn [app tl].
    assert (X : exists t' s', (if negb (hd0 (skip_ws (args_text l ++ 41 :: rest)) =? 41) && negb (is_eol (skip_ws (args_text l ++ 41 :: rest)))
        then parse_args_loop C (knot C (S m)) (S (length (skip_ws (args_text l ++ 41 :: rest)))) r id 0 true (skip_ws (args_text l ++ 41 :: rest))
        else ret (skip_ws (args_text l ++ 41 :: rest), 0%nat)) s1 = Ok (41 :: rest, length (d_args d)) s' /\ @core P' ((id, t') :: fr) Cs C D ops k now s' /\ at_ here out q s' /\ (s_depth s' = s_depth s1 \/ s_depth s' = 0)).
    { destruct l as [|w l].
      - destruct (d_args d) as [|? ?]; [|discriminate]. injection Bi as <-. exists [], s1. split; [reflexivity|]. split; [assumption|]. split; [assumption|now left].
      - assert (Ow : Forall (fun w => written_ok (P := P) w) (w :: l)) by (eapply Forall_impl; [|exact Oa]; intros x ((Hx & _) & _); exact Hx).
        inversion Ow as [|? ? Ow1 Ow2]; subst. destruct (written_first P w Ow1) as (c & t & Et & Nb & Ne & N41). pose proof Ow1 as (Bb & _).
        assert (Es : exists u, args_text (w :: l) ++ 41 :: rest = w_before w ++ c :: u).
        { cbn [args_text]. destruct l; unfold wr; rewrite Et, <- !app_assoc; cbn [app]; eauto. }
        destruct Es as (u & Es).
        assert (Ew : skip_ws (args_text (w :: l) ++ 41 :: rest) = c :: u) by (rewrite Es, skip_ws_app by exact Bb; now apply skip_ws_nonblank).
        pose proof (is_eol_not c u Ne) as Eo.
        replace (negb (hd0 (skip_ws (args_text (w :: l) ++ 41 :: rest)) =? 41) && negb (is_eol (skip_ws (args_text (w :: l) ++ 41 :: rest)))) with true
          by (rewrite Ew, Eo; cbn [hd0]; replace (c =? 41) with false by lia; reflexivity).
        rewrite loop_ws.
        refine (args_step P fr lv m k now here out q r d id rest Hm K1 Hd Fi (d_args d) (w :: l) [] P P' [] s1 _ true eq_refl On Oc Oa _ Ap Bi ltac:(discriminate) _ Kc1 A1).
        + apply Forall_forall. intros x _ n _. reflexivity.
        + rewrite Ew. cbn [length args_text] in *. destruct l as [|w2 l]; [cbn; lia|]. pose proof (args_len P (w2 :: l) Ow2) as Ll.
          change (args_text (w :: w2 :: l)) with (wr w ++ 44 :: args_text (w2 :: l)) in Es. set (B := args_text (w2 :: l)) in *.
          assert (Lw : (S (length (w_before w)) <= length (wr w))%nat) by (unfold wr; rewrite Et, !app_length; cbn [length]; lia).
          apply (f_equal (@length Z)) in Es. rewrite !app_length in Es. cbn [length] in *. lia. }
    destruct X as (t' & s' & E2 & K2 & A2 & D2). rewrite (bind_ok _ _ _ _ _ E2). rewrite (bind_ok _ _ _ _ _ (Eg s' P' _ K2)). rewrite skipn_all. cbn [ParserModel.fill_args]. rewrite bind_ret.
    exists (Some id), ((id, t') :: fr), s'. split; [reflexivity|]. split; [exact K2|]. split; [exact A2|]. split; [now exists t'|exact D2].
  - cbn [app]. rewrite Nr. destruct (d_args d) as [|? ?]; [|discriminate]. injection Bi as <-. cbn [negb andb length Nat.eqb].
    exists None, fr, s. split; [reflexivity|]. auto.
Qed.

(** ** The call *)
Lemma tables_alnum : forallb (fun o => forallb isalnum (op_name o)) ops = true.
Proof. pose proof tables_names as T. rewrite forallb_app in T. apply andb_true_iff in T as (T1 & T2). destruct known_table as [-> | ->]; assumption. Qed.
Lemma no_opcode name r l : isalnum (hd0 r) = false -> forallb (fun o => forallb isalnum (op_name o)) l = true -> forallb (fun o => negb (eqbl_ci name (op_name o))) l = true ->
  find_opcode (name ++ r) (length name) l = [].
Proof.
  intros Hr. induction l as [|o l IH]; [reflexivity|]. cbn [forallb find_opcode]. intros H1 H2. apply andb_true_iff in H1 as (H1 & H3). apply andb_true_iff in H2 as (H2 & H4).
  destruct (strncaseq _ _ (op_name o)) eqn:E; [|auto]. exfalso. apply strncaseq_exact in E; [rewrite E in H2; discriminate| |exact Hr]. apply Forall_forall. now apply forallb_forall.
Qed.
Lemma starts_of n : forall r w, strncaseq (length n) (n ++ r) w = true -> starts n w = true.
Proof.
  induction n as [|c n IH]; intros r w H; [reflexivity|]. cbn [length app strncaseq] in H. destruct w as [|d w]; [discriminate|]. apply andb_true_iff in H as (H1 & H2).
  cbn [starts eqbl_ci]. rewrite H1, (IH r w H2). reflexivity.
Qed.
Lemma spaced_text b : body_start b = true -> blocks_text (spaced b) = 32 :: blocks_text b.
Proof.
  destruct b as [|l more|t cr more|h yes no more]; try discriminate; cbn [body_start spaced blocks_text]; intros H.
  - unfold line_text, section_text. cbn [l_first l_more l_comment l_cr x_label x_indent x_stmt]. destruct (x_label (l_first l)); [discriminate|]. reflexivity.
  - reflexivity.
Qed.

Variable macros : list macro.
(** The text of the body, without the line break if it is one line. *)
Definition kept_body (q : macro) (t : text) : Prop :=
  t = blocks_text (q_body q) \/ exists l, q_body q = Line l Nil /\ l_comment l = None /\ t = section_text (l_first l) ++ more_text (l_more l).
Hypothesis D_macros : forall q, In q macros -> exists d, tfind (key C (q_name q)) D = Some d /\ d_args d = q_names q /\ d_contents d <> None /\ forall t, d_contents d = Some t -> kept_body q t.
Definition plain_macro (q : macro) : Prop :=
  eqbl (key C (q_name q)) (zs "__LINE") = false /\ eqbl (key C (q_name q)) (zs "__FILE") = false /\ ~ In 46 (q_name q) /\
  forallb (fun o => negb (eqbl_ci (q_name q) (op_name o))) ops = true /\ Forall name_ok (q_names q) /\ body_start (q_body q) = true.
Hypothesis macros_plain : Forall plain_macro macros.
Variable sources : list (text * blocks).
Hypothesis sources_fine : sources_ok (c_files C) sources.
Notation step := (fun deeper => mkcalls (step_after (c_wrap C) (c_ez80 C) (key C) taken macros deeper) (step_bytes (c_wrap C) (c_ez80 C) (key C) taken macros deeper)
  (step_ok (c_wrap C) (c_ez80 C) (key C) taken ops macros consts deeper)
  (pasted_after (c_wrap C) (c_ez80 C) (key C) taken (c_files C) dirs sources deeper) (pasted_bytes (c_wrap C) (c_ez80 C) (key C) taken (c_files C) dirs sources deeper)
  (pasted_ok (c_wrap C) (c_ez80 C) (key C) taken ops (c_files C) dirs sources deeper)).
Lemma found n q : find_macro (key C) macros n = Some q -> In q macros /\ key C (q_name q) = key C n.
Proof. intros H. apply find_some in H as (H1 & H2). split; [exact H1|now apply eqbl_eq]. Qed.

Lemma walk_sound (P : Params) (deeper : Calls) : @calls_lawful P deeper C -> forall l now here now' here',
  sections_ok (P := P) (Ca := deeper) (c_wrap C) (c_ez80 C) (key C) taken ops now here l -> walk C D now here l = Some (now', here') ->
  sound C now -> 0 <= here <= 999999999 -> sound C now' /\ 0 <= here' <= 999999999.
Proof.
  intros La. induction l as [|x l IH]; intros now here now' here' O W So H.
  - cbn in W. injection W as <- <-. auto.
  - cbn [walk sections_ok] in *. destruct O as (O1 & O2). destruct (after _ _ _ _ now here x) as [(n1, h1)|] eqn:Af; [|discriminate].
    destruct (after_sound C D ops D_names n2 deep2 La now here x n1 h1 Af O1 So H) as (S1 & H1). eapply IH; eauto.
Qed.
Lemma step_lawful (deeper : Calls) : (forall P, @calls_lawful P deeper C) -> forall P, @calls_lawful P (step deeper) C.
Proof.
  intros La P. constructor.
  - intros t here y t' here' H. cbn [call_after] in H. unfold step_after in H. destruct (expansion _ _ _ _ _ _ _) as [(q, P')|]; [|discriminate].
    destruct (expanded _ _ _ _ _ _ _ _ _) as [(p, r)|] eqn:E; [|discriminate]. injection H as ->. apply (proj1 (chosen_walk C D)) in E.
    eapply walk_ext; [apply La|exact E].
  - intros t here y H. cbn [call_ok] in H. destruct H as (H1 & _ & H3 & _). auto.
  - intros t here y t' here' O H So Hh. cbn [call_after call_ok] in *. unfold step_after in H. destruct O as (_ & _ & _ & _ & _ & O).
    destruct (expansion _ _ _ _ _ _ _) as [(q, P')|]; [|discriminate]. destruct O as (_ & _ & O).
    destruct (expanded _ _ _ _ _ _ _ _ _) as [(p, r)|] eqn:E; [|discriminate]. injection H as ->. apply (proj1 (chosen_walk C D)) in E. destruct O as (_ & O).
    eapply walk_sound; [apply La|exact O|exact E|exact So|exact Hh].
  - intros t here z t' here' H. cbn [paste_after] in H. unfold pasted_after in H. destruct (is_import z).
    + destruct (contents _ _ z) as [l|]; [|discriminate]. injection H as <- _. intros n v E. exact E.
    + destruct (pasted _ _ _ _ _ _ _ _ _ _ _ z) as [(p, r)|] eqn:E; [|discriminate]. injection H as ->. unfold pasted in E. destruct (source _ _ _ z) as [b|]; [|discriminate].
      apply (proj1 (chosen_walk C D)) in E. eapply walk_ext; [apply La|exact E].
  - intros t here z t' here' O H So Hh. cbn [paste_after paste_ok] in *. unfold pasted_after in H. destruct O as (_ & _ & _ & _ & _ & O). destruct (is_import z).
    + destruct (contents _ _ z) as [l|]; [|discriminate]. injection H as <- _. exact So.
    + unfold pasted in *. destruct (source _ _ _ z) as [b|]; [|discriminate]. destruct (chosen _ _ _ _ _ _ b) as [(p, r)|] eqn:E; [|discriminate]. injection H as ->. destruct O as (_ & O).
      apply (proj1 (chosen_walk C D)) in E. eapply walk_sound; [apply La|exact O|exact E|exact So|exact Hh].
Qed.

Lemma fatal_free k l : errs_ok (k + 1) l -> sess_fatal (k + 1) l = false.
Proof.
  intros H. apply errs_all in H. unfold sess_fatal. induction H as [|e l (H1 & H2) F IH]; [reflexivity|]. cbn [lead]. destruct (e_sess e =? k + 1); [|reflexivity].
  cbn [existsb]. rewrite IH, orb_false_r, H1. reflexivity.
Qed.
Lemma blank_over w rest : Forall blank w -> line_over rest -> is_eol (skip_ws (w ++ rest)) = true /\ (hd0 (w ++ rest) =? 40) = false /\ is_name_char (hd0 (w ++ rest)) = false.
Proof.
  intros B L. split; [|split].
  - rewrite skip_ws_app by exact B. destruct L as [->|(c & t & -> & H)]; [reflexivity|]. rewrite skip_ws_nonblank by (unfold blank, line_ender in *; lia). now apply is_eol_cons.
  - destruct B as [|c w Bc]; cbn [app hd0]; [|unfold blank in Bc; lia]. destruct L as [->|(c & t & -> & H)]; [reflexivity|]. cbn [hd0]. unfold line_ender in H. lia.
  - destruct B as [|c w Bc]; cbn [app hd0]; [|now apply blank_space]. destruct L as [->|(c & t & -> & H)]; [reflexivity|]. cbn [hd0]. unfold line_ender in H. unfold is_name_char, isalnum, isalpha, isdigit, isupper, islower. cbn. lia.
Qed.
Theorem step_run (deeper : Calls) (enough : nat) : (forall P, @calls_lawful P deeper C) ->
  (forall lv P fr, 0 <= lv -> @calls_run (Z.le lv) dr P fr Cs deeper C D ops n2 enough) ->
  Forall (fun q => (length (blocks_text (q_body q)) + 24 <= enough)%nat) macros ->
  forall lv P fr, 0 <= lv -> @macros_run (Z.le lv) dr P fr Cs (step deeper) C D ops n2 (S enough).
Proof.
  intros La Ru Sz lv P fr Lv m k T t here y b t' here' rest s out q Hm He K1 G O Af Sm X Ob Rm Lo. cbn [call_ok call_after call_bytes] in *.
  destruct m as [|m]; [lia|]. destruct O as (On & Oa & Ob1 & Of & Og & O). unfold step_after in Af. unfold step_bytes in Ob.
  unfold expansion in *. destruct (find_macro (key C) macros (y_name y)) as [mac|] eqn:Fm; [|contradiction]. destruct (bind_args _ _ _ _ _ _ _ _) as [P'|] eqn:Bi; [|contradiction].
  destruct O as (Ap & Oc & O). destruct (expanded _ _ _ _ _ _ _ _ _) as [(p, r)|] eqn:Ex; [|contradiction]. injection Af as ->. destruct O as (Ok1 & Ok2).
  destruct (found _ _ Fm) as (Im & Em). destruct (D_macros mac Im) as (d & Ed & Da & Dc).
  pose proof macros_plain as Pl. rewrite Forall_forall in Pl. destruct (Pl mac Im) as (L1 & L2 & L3 & L4 & L5 & L6). rewrite Forall_forall in Sz. specialize (Sz mac Im).
  pose proof (key_ci C _ _ Em) as Ci. rewrite Em in *.
  destruct G as (K & A & So & Hh). destruct (blank_over _ _ Ob1 Lo) as (Q1 & Q2 & Q3).
  change (call_text y) with (y_name y ++ args_part y). rewrite <- !app_assoc. unfold handle_opcode_or_macro. set (r1 := args_part y ++ y_after y ++ rest) in *.
  destruct On as (_ & (c0 & u0 & En & Ns) & Nc).
  assert (Nr : is_name_char (hd0 r1) = false /\ isalnum (hd0 r1) = false).
  { assert (X1 : is_name_char (hd0 r1) = false) by (unfold r1, args_part; destruct (y_args y); [reflexivity|exact Q3]). split; [exact X1|]. unfold is_name_char in X1. now destruct (isalnum (hd0 r1)). }
  destruct Nr as (Nr1 & Nr2). rewrite (skip_name_app _ _ Nc Nr1), seg_app, !bind_get.
  assert (Nd : ~ In 46 (y_name y)).
  { clear - Ci L3. revert Ci. generalize (y_name y). revert L3. induction (q_name mac) as [|a l IH]; intros L3 [|b l'] E; try discriminate; [easy|]. cbn in E. apply andb_true_iff in E as (E1 & E2).
    intros [->|I]; [|apply (IH ltac:(intros J; apply L3; now right) l' E2 I)]. apply L3. left. change (tolower 46) with 46 in E1. unfold tolower, isupper in E1. destruct (_ && _) eqn:? in E1; lia. }
  replace (if c_ez80 C then parse_suffix (s_adl s) (y_name y) else (-1, length (y_name y))) with (-1, length (y_name y)) by (destruct (c_ez80 C); [now rewrite c36_no_suffix|reflexivity]).
  rewrite (k_ops _ _ _ _ _ _ K). rewrite no_opcode; [|exact Nr2|apply tables_alnum|].
  2:{ rewrite forallb_forall in *. intros o Io. specialize (L4 o Io). destruct (eqbl_ci (y_name y) (op_name o)) eqn:E; [|reflexivity]. rewrite (ci_trans (y_name y) (q_name mac) (op_name o)) in L4; [discriminate| |exact E]. apply key_ci with (C := C). now symmetry. }
  assert (Wd : forall w, In w functions -> strncaseq (length (y_name y)) (y_name y ++ r1) w && (hd0 r1 =? 40) = false).
  { intros w Iw. destruct (hd0 r1 =? 40) eqn:E; [|apply andb_false_r]. rewrite andb_true_r. destruct (strncaseq _ _ w) eqn:E1; [|reflexivity]. apply starts_of in E1.
    assert (Hy : y_args y <> None) by (intros Hn; unfold r1, args_part in E; rewrite Hn in E; cbn [app] in E; congruence).
    specialize (Of Hy). rewrite forallb_forall in Of. specialize (Of w Iw). rewrite E1 in Of. discriminate. }
  rewrite !Wd by (unfold functions; simpl; auto).
  assert (Es : search_defines C (y_name y) true s = Ok (Some (RG (key C (y_name y)))) s).
  { unfold search_defines. rewrite !bind_get. rewrite (k_args _ _ _ _ _ _ K), (k_defines _ _ _ _ _ _ K), L1, L2, Ed, bind_ret.
    pose proof (k_frame _ _ _ _ _ _ K (y_name y)) as Kf. unfold frame in *. destruct (find_arg (key C (y_name y)) fr) as [r0|]; [|reflexivity].
    destruct Kf as ((v & Kf & _) & _). rewrite Oa in Kf. discriminate Kf. }
  rewrite (bind_ok _ _ _ _ _ Es). unfold run_macro, start_session. rewrite !bind_assoc, bind_get, bind_assoc, bind_upd, bind_ret. rewrite (k_sess _ _ _ _ _ _ K).
  set (s0 := set_sess (k + 1) s).
  assert (K0 : @core P fr Cs C D ops (k + 1) t s0) by (pose proof (k_errs _ _ _ _ _ _ K) as Ke; destruct K; constructor; try assumption; [reflexivity|now apply errs_up]).
  assert (A0 : @at_ (Z.le (s_iflevel s)) dr here out q s0) by (destruct A; constructor; try assumption; apply Z.le_refl).
  destruct (parse_args_run P P' fr (Z.le (s_iflevel s)) (S m) (k + 1) t here out q s0 y (RG (key C (y_name y))) d (y_after y ++ rest)) as (ids & fr' & s1 & E1 & Kc1 & A1 & Id & _); auto; [lia|now rewrite Da| |now rewrite Da|now rewrite Da|].
  { rewrite Da. rewrite forallb_forall in Oc. apply Forall_forall. intros x Hx. specialize (Oc x Hx). destruct (assoc (key C) consts x); [discriminate|reflexivity]. }
  fold r1 in E1. rewrite (bind_ok _ _ _ _ _ E1). rewrite bind_get, (fatal_free k _ (k_errs _ _ _ _ _ _ Kc1)).
  assert (Eg : forall s1, s_defines s1 = D -> get_define (RG (key C (y_name y))) s1 = Ok d s1) by (intros s2 H; unfold get_define; cbn [lookup_ref]; now rewrite H, Ed).
  rewrite bind_assoc, (bind_ok _ _ _ _ _ (Eg s1 (k_defines _ _ _ _ _ _ Kc1))). destruct (d_contents d) as [tx|] eqn:Etx; [|destruct Dc; congruence]. destruct Dc as (_ & Dc). specialize (Dc tx eq_refl).
  rewrite Q1. cbn [negb]. rewrite bind_assoc, bind_get, bind_assoc, bind_get, bind_assoc, bind_upd, bind_assoc, bind_upd, bind_assoc.
  set (s2 := set_line (d_line d) (set_file (d_file d) s1)).
  assert (G2 : @good any_level dr P' fr' Cs C D ops (k + 1) t here out q s2).
  { split; [destruct Kc1; constructor; assumption|]. split; [destruct A1; constructor; try assumption; exact I|auto]. }
  pose proof (a_level _ _ _ _ A1) as La1. unfold level in La1. pose proof (a_level _ _ _ _ A) as La0. unfold level in La0.
  assert (Run : exists s3 b0 q', macro_lines (knot C (S (S m))) (f_n (knot C (S (S m)))) (32 :: tx) s2 = Ok tt s3 /\ @good any_level dr P' fr' Cs C D ops (k + 1) t' here' (out ++ b0) (q ++ q') s3 /\
      AsmProofs.fills C D ops n2 T (zlen out) q' b0 b /\ s_iflevel s1 <= s_iflevel s3).
  { destruct Dc as [->|(l & El & Ec & ->)].
    - destruct (run_all C D ops normal no_counter D_names D_full n2 deep2 known_table enough (La P') (fun lv H => Ru lv P' fr' H) m (k + 1) T ltac:(lia) ltac:(lia) ltac:(lia) _ (macro_takes C m)) as (Rb & _).
      pose proof (Rb (spaced (q_body mac)) false t here s2 out q p t' here' b [] Ok1 Ex) as Le. rewrite app_nil_r, spaced_text in Le by exact L6.
      destruct (Le ltac:(split; [exact Ok2|split; [exact Ob|split; [exact X|exact Rm]]]) ltac:(cbn [length]; lia) G2 ltac:(change (s_iflevel s2) with (s_iflevel s1); lia) (f_n (knot C (S (S m))))) as (f3 & s3 & b0 & q' & Lf & E3 & G3 & Fi & Lv3).
      { cbn [knot f_n length]. lia. }
      destruct f3 as [|f3]; [cbn in Lf; lia|]. cbn [macro_lines] in E3. rewrite bind_get in E3. exists s3, b0, q'. auto.
    - unfold expanded in Ex. rewrite El in Ex, L6, Sz. cbn [spaced] in Ex. set (l' := mkline _ _ _ _) in Ex. cbn [body_start] in L6.
      assert (Lb : x_label (l_first l) = None) by (destruct (x_label (l_first l)); [discriminate L6|reflexivity]).
      assert (Tx : more_text (l_first l' :: l_more l') ++ [] = 92 :: 32 :: section_text (l_first l) ++ more_text (l_more l)).
      { unfold more_text. cbn [flat_map l' l_first l_more]. rewrite app_nil_r. unfold section_text at 1. cbn [x_label x_indent x_stmt]. rewrite Lb. cbn [app]. unfold section_text at 2. rewrite Lb. reflexivity. }
      pose proof (proj1 (chosen_walk (Pm := P') (Ca := deeper) C D) _ _ _ _ _ Ex) as W. cbn [CondSpec.chosen] in Ex. rewrite (reached_walk (Pm := P') (Ca := deeper) C D) in Ex.
      destruct (walk (Ca := deeper) C D t here (sections [l'])) as [(n1, h1)|] eqn:W1; [|discriminate]. apply and_then_some in Ex as (p1 & n1' & h1' & p2 & F1 & F2 & ->). injection F1 as <- <- <-. injection F2 as <- <- <-.
      cbn [app] in *. clear W. unfold sections in W1, Ok2, Ob. cbn [flat_map] in W1, Ok2, Ob. rewrite app_nil_r in W1, Ok2, Ob.
      assert (Lm : (S (length (l_more l)) <= S m)%nat).
      { cbn [blocks_text] in Sz. unfold line_text in Sz. rewrite !app_length in Sz.
        assert (L : (length (l_more l) <= length (flat_map (fun x => 92%Z :: section_text x) (l_more l)))%nat) by (clear; induction (l_more l) as [|x xs IH]; [cbn; lia|]; cbn [flat_map length]; rewrite app_length; cbn [length]; lia). lia. }
      destruct (@loop_run (Z.le (s_iflevel s1)) dr P' fr' Cs deeper C D ops normal no_counter D_names n2 deep2 known_table enough (La P') (Ru (s_iflevel s1) P' fr' ltac:(lia)) m (k + 1) T [] ltac:(lia) ltac:(lia) ltac:(lia) (or_introl eq_refl) ltac:(discriminate)
        (l_first l' :: l_more l') (S m) t here s2 out q b n1 h1) as (s3 & b0 & q' & E3 & G3 & Fi); auto; [discriminate|split; [exact (proj1 G2)|split; [destruct (proj1 (proj2 G2)); constructor; try assumption; apply Z.le_refl|exact (proj2 (proj2 G2))]]|].
      rewrite Tx in E3. cbn [line_loop] in E3. change (skip_char 92 (92 :: 32 :: section_text (l_first l) ++ more_text (l_more l))) with (32 :: section_text (l_first l) ++ more_text (l_more l)) in E3.
      exists (set_line (s_line s3 + 1) s3), b0, q'. split; [|split; [|split; [exact Fi|destruct G3 as (_ & A3 & _); exact (a_level _ _ _ _ A3)]]].
      + cbn [knot f_n]. rewrite (macro_takes C m (S m) 32 _ s2 [] s3); [reflexivity|exact (k_erroc _ _ _ _ _ _ (proj1 G2))|exact E3].
      + destruct G3 as (K3 & A3 & So3 & Hh3). split; [destruct K3; constructor; assumption|]. split; [destruct A3; constructor; first [assumption|reflexivity|exact I]|split; assumption]. }
  destruct Run as (s3 & b0 & q' & E3 & G3 & Fi & Lv3).
  rewrite (bind_ok _ _ _ _ _ E3). rewrite bind_assoc, bind_upd, bind_upd.
  match goal with |- context [set_line ?a (set_file ?b s3)] => set (s4 := set_line a (set_file b s3)) end.
  destruct G3 as (K3 & A3 & So3 & Hh3).
  assert (R4 : exists s5, remove_arg_set ids s4 = Ok tt s5 /\ @core P fr Cs C D ops (k + 1) t' s5 /\ @at_ (Z.le lv) dr here' (out ++ b0) (q ++ q') s5).
  { pose proof (k_frame _ _ _ _ _ _ K) as Kf. pose proof (k_pnames _ _ _ _ _ _ K) as Kp. pose proof (k_ids _ _ _ _ _ _ K3) as Ki. pose proof (k_args _ _ _ _ _ _ K3) as Ka. unfold frame in Ki, Ka.
    assert (A4 : @at_ (Z.le lv) dr here' (out ++ b0) (q ++ q') s4) by (destruct A3; constructor; try assumption; unfold level; change (s_iflevel s4) with (s_iflevel s3); lia).
    destruct ids as [id|].
    - destruct Id as (t0 & ->). exists (set_args fr s4). split; [|split].
      + unfold remove_arg_set. rewrite bind_get. change (s_args s4) with (s_args s3). rewrite Ka. cbn [find_set del_set]. rewrite Nat.eqb_refl. reflexivity.
      + inversion Ki; subst. destruct K3; constructor; try assumption. reflexivity.
      + destruct A4; constructor; assumption.
    - destruct Id as (-> & ->). exists s4. split; [reflexivity|]. split; [|exact A4]. destruct K3; constructor; assumption. }
  destruct R4 as (s5 & E5 & K5 & A5). rewrite (bind_ok _ _ _ _ _ E5), (bind_ok _ _ _ _ _ (Eg s5 (k_defines _ _ _ _ _ _ K5))).
  unfold replay_session, end_session. rewrite bind_assoc, bind_get. replace (k + 1 =? 1) with false by lia. rewrite bind_upd.
  rewrite bind_assoc, bind_get, bind_assoc, bind_get, bind_assoc, bind_upd, bind_assoc, bind_upd. cbn [andb]. rewrite bind_ret.
  pose proof (errs_close k _ K1 (k_errs _ _ _ _ _ _ K5)) as Ke. pose proof (k_sess _ _ _ _ _ _ K5) as Ks.
  eexists _, b0, q'. split; [reflexivity|]. split; [|exact Fi]. split; [|split; [|split; [exact So3|exact Hh3]]].
  - destruct K5; constructor; try assumption. cbn. lia.
  - destruct A5; constructor; assumption.
Qed.

(** ** Files *)
Lemma located_is n : file_name n -> (if is_abs_path n && exists_file C n then Some n else find_in C dirs n) = located (c_files C) dirs n.
Proof.
  intros F. rewrite rooted_abs. unfold located.
  assert (E : forall l, find_in C l n = find (fun f => isSome (c_files C f)) (map (in_dir n) l)).
  { induction l as [|d l IH]; [reflexivity|]. cbn [find_in map find]. change (fix_filename (d ++ 47 :: n)) with (in_dir n d). unfold exists_file at 1. fold (isSome (c_files C (in_dir n d))).
    rewrite IH. destruct (c_files C (in_dir n d)); reflexivity. }
  rewrite E. unfold exists_file. destruct (rooted n); cbn [andb app find]; [|reflexivity]. destruct (c_files C n); reflexivity.
Qed.
Lemma plain_file n : file_name n -> IncludeProps.plain_name n.
Proof. intros (F & L & _). split; assumption. Qed.
Lemma find_source f b : find (fun x => eqbl (fst x) f) sources = Some b -> In b sources /\ fst b = f.
Proof. intros H. apply find_some in H as (H1 & H2). split; [exact H1|now apply eqbl_eq]. Qed.
Lemma emit_bytes (P : Params) (fr : Frame) (lv : Level) k t q : forall l s here out, core C D ops k t s -> at_ here out q s -> Forall (fun c => 0 <= c < 256) l ->
  0 <= here -> here + zlen l <= 999999999 -> zlen out + zlen l <= 8000000 ->
  exists s', emit_all l s = Ok tt s' /\ core C D ops k t s' /\ at_ (here + zlen l) (out ++ l) q s'.
Proof.
  induction l as [|c l IH]; intros s here out K A F H0 H1 H2.
  - exists s. change (zlen []) with 0 in *. rewrite Z.add_0_r, app_nil_r. auto.
  - inversion F as [|? ? Fc Fl]; subst. rewrite zlen_cons in *. pose proof (zlen_nonneg l). pose proof (zlen_nonneg out). cbn [emit_all]. unfold emit. rewrite bind_assoc.
    rewrite (bind_ok _ _ s tt (emitted [c] s)).
    2:{ rewrite write_out_emitted; [now rewrite u8_id by (unfold is_byte; lia)|]. split; rewrite (a_pos _ _ _ _ A); unfold zlen in *; lia. }
    assert (K1 : core C D ops k t (emitted [c] s)) by now apply emitted_core.
    assert (A1 : at_ here (out ++ [c]) q (emitted [c] s)) by now apply emitted_at.
    destruct (moved C D ops D_names n2 deep2 k t here (out ++ [c]) q 1 (emitted [c] s) K1 A1) as (s2 & E2 & K2 & A2 & _); try lia.
    rewrite (bind_ok _ _ _ _ _ E2). destruct (IH s2 (here + 1) (out ++ [c])) as (s3 & E3 & K3 & A3); auto; try lia; [rewrite zlen_app, zlen_cons; change (zlen []) with 0; lia|].
    exists s3. split; [exact E3|]. split; [exact K3|]. rewrite <- app_assoc in A3. cbn [app] in A3. now rewrite <- Z.add_assoc in A3.
Qed.
Theorem pasted_run (deeper : Calls) (enough : nat) : (forall P, @calls_lawful P deeper C) ->
  (forall lv P fr, 0 <= lv -> @calls_run (Z.le lv) dr P fr Cs deeper C D ops n2 enough) ->
  Forall (fun x => (length (blocks_text (snd x)) + 24 <= enough)%nat) sources ->
  forall lv P fr, 0 <= lv -> @pastes_run (Z.le lv) dr P fr Cs (step deeper) C D ops n2 (S (S (S enough))).
Proof.
  intros La Ru Sz lv P fr Lv m k T t here z b t' here' rest s out q Hm He K1 G O Af Sm X Ob Rm Lo. cbn [paste_ok paste_after paste_bytes] in *.
  destruct m as [|[|[|m]]]; try lia. destruct O as (Ow & Og & Of & Oa & Ol & O). unfold pasted_after in Af. unfold pasted_bytes in Ob.
  pose proof G as (K & A & So & Hh). pose proof (a_search _ _ _ _ A) as Sd. pose proof (a_level _ _ _ _ A) as Lv0. unfold level in Lv0.
  assert (Gw : forall l o, word_is (z_word z) l = true -> Forall (fun k => forallb isalpha k = true /\ find_ci k preops = Some o) l ->
    skip_nonspace (paste_text z ++ rest) = z_gap z ++ (34 :: z_name z ++ 34 :: z_after z) ++ rest /\
    find_ci (seg (paste_text z ++ rest) (z_gap z ++ (34 :: z_name z ++ 34 :: z_after z) ++ rest)) preops = Some o).
  { intros l o W F. unfold paste_text. rewrite <- app_assoc, <- (app_assoc (z_gap z)). destruct (preop_word (z_word z) l (z_gap z ++ (34 :: z_name z ++ 34 :: z_after z) ++ rest) o W F) as (E1 & E2 & E3).
    - destruct Og as (Gn & Gb). destruct (z_gap z) as [|c g]; [congruence|]. inversion Gb; subst. now apply blank_space.
    - rewrite E1, E2, E3. auto. }
  assert (Eg : skip_ws (z_gap z ++ (34 :: z_name z ++ 34 :: z_after z) ++ rest) = 34 :: z_name z ++ 34 :: z_after z ++ rest).
  { rewrite skip_ws_app by apply Og. cbn [app]. rewrite skip_ws_nonblank by (unfold blank; lia). now rewrite <- app_assoc. }
  assert (Lc : (if is_abs_path (z_name z) && exists_file C (z_name z) then Some (z_name z) else find_in C (s_incdirs s) (z_name z)) = located (c_files C) dirs (z_name z)) by (rewrite Sd; apply located_is; exact Of).
  unfold handle_preop. destruct (is_import z) eqn:Im.
  - destruct (Gw [zs "import"] P_IMPORT Im) as (E1 & E2); [repeat constructor|]. cbv zeta. rewrite E1, E2, Eg. clear E1 E2 Eg Gw.
    destruct (contents _ _ z) as [l|] eqn:Ec; [|contradiction]. injection Af as <- <-. injection Ob as <-. unfold contents in Ec. rewrite <- Lc in Ec. clear Lc.
    unfold preop_import. change (is_eol (34 :: z_name z ++ 34 :: z_after z ++ rest)) with false. cbv iota.
    unfold read_expr, read_expr'. rewrite (IncludeProps.read_quoted (z_name z) (z_after z) rest (plain_file _ Of) Oa Ol Lo). cbn [rx_long rx_ptr rx_word].
    rewrite !bind_assoc, !bind_ret. cbn [rx_long rx_ptr rx_word].
    assert (Eu : unquote (fix_filename (34 :: z_name z ++ [34])) = z_name z).
    { destruct Of as (Of & _). change (fix_filename (34 :: z_name z ++ [34])) with (IncludeProps.slashes (34 :: z_name z ++ [34])). rewrite IncludeProps.slashes_id.
      - unfold unquote. rewrite (skip_ws_nonblank 34) by (unfold UtilsSpec.blank; lia). cbn [hd0 Z.eqb Pos.eqb tl]. apply IncludeProps.to_quote_app.
        eapply Forall_impl; [|exact Of]. simpl. intros c. lia.
      - constructor; [lia|]. apply Forall_app. split; [|repeat constructor; lia]. eapply Forall_impl; [|exact Of]. simpl. intros c. lia. }
    rewrite Eu. unfold full_path. rewrite !bind_assoc, bind_get, bind_ret. destruct (if is_abs_path (z_name z) && exists_file C (z_name z) then _ else _) as [f|]; [|discriminate]. rewrite Ec.
    unfold small in Sm. apply andb_true_iff in Sm as (Sm1 & Sm2). pose proof (zlen_nonneg l).
    destruct (emit_bytes P fr (Z.le lv) k t q l s here out K A O ltac:(lia) ltac:(lia) Rm) as (s1 & E1 & K2 & A2).
    rewrite bind_assoc, (bind_ok _ _ _ _ _ E1), bind_ret. eexists s1, l, []. split; [reflexivity|]. rewrite app_nil_r. split; [|apply fills_nil]. split; [exact K2|]. split; [exact A2|]. split; [exact So|lia].
  - assert (Wi : word_is (z_word z) [zs "include"] = true).
    { unfold is_import, word_is in *. cbn [existsb] in *. rewrite orb_false_r in *. apply orb_true_iff in Ow as [Ow|Ow]; [exact Ow|congruence]. }
    destruct (Gw [zs "include"] P_INCLUDE Wi) as (E1 & E2); [repeat constructor|]. cbv zeta. rewrite E1, E2, Eg. clear E1 E2 Eg Gw.
    destruct (source _ _ _ z) as [bl|] eqn:Es; [|contradiction]. destruct (pasted _ _ _ _ _ _ _ _ _ _ _ z) as [(p, r)|] eqn:Ex; [|contradiction]. injection Af as ->. destruct O as (Ok1 & Ok2).
    unfold pasted in Ex. rewrite Es in Ex. unfold source in Es. rewrite <- Lc in Es.
    destruct (IncludeProps.c34_include C (knot C (S (S (S m)))) (z_name z) (z_after z) rest s (plain_file _ Of) Oa Ol Lo) as (f & Ef & Er).
    unfold full_path in Ef. rewrite bind_get in Ef. unfold ret in Ef. injection Ef as Ef. rewrite Ef in Es. destruct f as [f|]; [|discriminate].
    match type of Es with match ?x with _ => _ end = _ => destruct x as [(f0, b1)|] eqn:Fi end; [|discriminate]. injection Es as ->. destruct (find_source _ _ Fi) as (Is & Ef0). cbn [fst] in Ef0. subst f0.
    rewrite Forall_forall in Sz. specialize (Sz _ Is). pose proof sources_fine as Sf. unfold sources_ok in Sf. rewrite Forall_forall in Sf. destruct (Sf _ Is) as (Sf1 & Sf2 & Sf3). cbn [fst snd] in *.
    rewrite Sf1 in Er. set (tx := blocks_text bl) in *.
    assert (Nb : is_bitmap tx = false /\ get_file_contents tx = Some tx).
    { destruct tx as [|c u]; [contradiction|]. destruct Sf3 as (N1 & N2). split; [|now apply contents_id]. unfold is_bitmap. destruct (Z.eq_dec c 66) as [->|Hc].
      - specialize (N2 eq_refl). destruct u as [|d u]; [reflexivity|]. cbn [hd0] in N2. clear - N2. repeat match goal with |- context [match ?x with _ => _ end] => is_var x; destruct x; try reflexivity end. congruence.
      - clear - Hc. repeat match goal with |- context [match ?x with _ => _ end] => is_var x; destruct x; try reflexivity end; congruence. }
    destruct Nb as (Nb1 & Nb2). rewrite Nb1, Nb2, (until_nul_id _ Sf2) in Er.
    set (s1 := set_file f (set_infiles (f :: s_infiles s) s)) in *.
    pose (s2 := if c_ez80 C then set_adl true (set_line 1 s1) else set_line 1 s1).
    assert (Ep : f_pass (knot C (S (S (S m)))) tx s1 = pass_loop (knot C (S (S m))) (S (S m)) tx s2).
    { unfold s2. cbn [knot f_pass]. unfold run_first_pass. rewrite bind_upd. destruct (c_ez80 C); cbn [whenM]; [rewrite bind_upd|rewrite bind_ret]; reflexivity. }
    assert (G2 : @good any_level dr P fr Cs C D ops k t here out q s2).
    { pose proof (k_adl _ _ _ _ _ _ K) as Ka. split; [unfold s2; destruct (c_ez80 C) eqn:Ez; destruct K; constructor; try assumption; now rewrite Ez|].
      split; [unfold s2; destruct (c_ez80 C); destruct A; constructor; try assumption; exact I|auto]. }
    assert (L2 : s_iflevel s2 = s_iflevel s) by (unfold s2; destruct (c_ez80 C); reflexivity).
    destruct (run_all C D ops normal no_counter D_names D_full n2 deep2 known_table enough (La P) (fun lv H => Ru lv P fr H) m k T ltac:(lia) ltac:(lia) ltac:(lia) _ (pass_takes C m)) as (Rb & _).
    pose proof (Rb bl false t here s2 out q p t' here' b [] Ok1 Ex) as Le. rewrite app_nil_r in Le.
    destruct (Le ltac:(split; [exact Ok2|split; [exact Ob|split; [exact X|exact Rm]]]) ltac:(cbn [length]; fold tx; lia) G2 ltac:(lia) (S (S m))) as (f3 & s3 & b0 & q' & Lf & E3 & G3 & Fi3 & Lv3).
    { fold tx. lia. }
    fold tx in E3. destruct f3 as [|f3]; [cbn in Lf; lia|]. assert (E4 : pass_loop (knot C (S (S m))) (S f3) [] s3 = Ok tt s3) by (cbn [pass_loop]; rewrite bind_get; reflexivity).
    rewrite Ep, E3, E4 in Er. rewrite (bind_ok _ _ _ _ _ Er). destruct G3 as (K3 & A3 & So3 & Hh3).
    eexists _, b0, q'. split; [reflexivity|]. split; [|exact Fi3]. split; [|split; [|split; [exact So3|exact Hh3]]].
    + destruct K3; constructor; assumption.
    + destruct A3; constructor; try assumption. unfold level. cbn. lia.
Qed.

(** Calls and inclusions at any depth. *)
Notation nested depth := (calls (c_wrap C) (c_ez80 C) (key C) taken ops macros consts (c_files C) dirs sources depth).
Lemma calls_laws depth : forall P, @calls_lawful P (nested depth) C.
Proof. induction depth as [|d IH]; [intros P; apply no_calls_lawful|]. exact (step_lawful _ IH). Qed.
Lemma runs_more (lv : Level) P fr (Ca : Calls) a b : (a <= b)%nat ->
  (@macros_run lv dr P fr Cs Ca C D ops n2 a -> @macros_run lv dr P fr Cs Ca C D ops n2 b) /\ (@pastes_run lv dr P fr Cs Ca C D ops n2 a -> @pastes_run lv dr P fr Cs Ca C D ops n2 b).
Proof. intros L. split; intros R m k T t here y b0 t' here' rest s out q H1 H2; exact (R m k T t here y b0 t' here' rest s out q H1 (Nat.le_trans _ _ _ L H2)). Qed.
Theorem calls_runs size : Forall (fun q => (length (blocks_text (q_body q)) + 24 <= size)%nat) macros ->
  Forall (fun x => (length (blocks_text (snd x)) + 24 <= size)%nat) sources -> forall depth lv P fr, 0 <= lv ->
  @calls_run (Z.le lv) dr P fr Cs (nested depth) C D ops n2 (size + 3 * depth).
Proof.
  intros Sz Sz2. induction depth as [|d IH]; intros lv P fr Lv.
  - split; intros m k T t here y b t' here' rest s out q _ _ _ _ O; destruct O.
  - assert (Y1 : Forall (fun q => (length (blocks_text (q_body q)) + 24 <= size + 3 * d)%nat) macros) by (eapply Forall_impl; [|exact Sz]; intros x Hx; cbn in Hx; lia).
    assert (Y2 : Forall (fun x => (length (blocks_text (snd x)) + 24 <= size + 3 * d)%nat) sources) by (eapply Forall_impl; [|exact Sz2]; intros x Hx; cbn in Hx; lia).
    split.
    + eapply (proj1 (runs_more _ _ _ _ (S (size + 3 * d)) (size + 3 * S d) ltac:(lia))). exact (step_run _ _ (calls_laws d) IH Y1 lv P fr Lv).
    + eapply (proj2 (runs_more _ _ _ _ (S (S (S (size + 3 * d)))) (size + 3 * S d) ltac:(lia))). exact (pasted_run _ _ (calls_laws d) IH Y2 lv P fr Lv).
Qed.

End MacroCalls.
