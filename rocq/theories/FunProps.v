(** Macros used in expressions, like functions (C71). *)
From Verif Require Import Programs Base BaseProofs State MonadProofs StorageModel ErrorsModel ParserModel PreopModel PassOneModel OpcodeTables MainModel FuelProofs UtilsModel UtilsSpec UtilsProofs
  StorageSpec StorageProofs ParserSpec ParserProofs ParserProps DefineProofs Knot ExportModel ExportSpec InstrSpec MatchSpec MatchProofs AsmSpec AsmExpand AsmProofs SubstProps AsmProps MacroSpec MacroRun MacroProps.

(** ** Expressions with calls *)
(** A macro whose body is an expression. *)
Record func := mkfunc { fn_name : text; fn_params : list text; fn_body : expr }.
(** An operand is a term or a call; an expression is a row of operands with operators between them
    (the blanks around an operator are part of it). *)
Inductive opd := OTerm (t : term) (tx : text) | OCall (y : call).
Record link := mklink { li_before : text; li_op : bop; li_after : text; li_opd : opd }.
Definition opd_text (o : opd) : text := match o with OTerm _ tx => tx | OCall y => call_text y end.
Definition row_text (l : list link) : text := flat_map (fun x => li_before x ++ spelling (li_op x) ++ li_after x ++ opd_text (li_opd x)) l.
Definition opd_name (o : opd) : bool := match o with OTerm t _ => term_name t | OCall _ => false end.

Section Meaning.
Variable wraps : bool.
Variable fold : text -> text.
Variable funs : list func.
Variable P : Params.
Variable now : table.
Variable here : Z.
(** The body, with the values of the arguments for the parameters. *)
Definition call_value (y : call) : option Z :=
  match find (fun f => eqbl (fold (fn_name f)) (fold (y_name y))) funs with
  | Some f =>
    match bind_args wraps fold P now here (fn_params f) (call_args y) P with
    | Some P' => val (P := P') wraps fold here now (fn_body f)
    | None => None
    end
  | None => None
  end.
Definition opd_value (o : opd) : option Z :=
  match o with OTerm t _ => val (P := P) wraps fold here now (Single t) | OCall y => call_value y end.
(** Strictly from left to right. *)
Fixpoint row_value (a : Z) (l : list link) : option Z :=
  match l with
  | [] => Some a
  | x :: l' =>
    match opd_value (li_opd x) with
    | Some b => match compute wraps (li_op x) a b with Val c => row_value c l' | _ => None end
    | None => None
    end
  end.
Variable tk : text -> bool.
Variable consts : Params.
Definition opd_ok (o : opd) : Prop :=
  match o with
  | OTerm t tx => writes_term t tx /\ forallb (usable (P := P) fold tk) (term_names t) = true /\ nest_term t <= 14
  | OCall y =>
    name_ok (y_name y) /\ (exists l, y_args y = Some l) /\ assoc fold P (y_name y) = None /\ assoc fold now (y_name y) = None /\
    eqbl_ci (y_name y) (zs "eval") = false /\ eqbl_ci (y_name y) (zs "getc") = false /\
    Forall (fun w => known_ok (P := P) fold tk w /\ nest (w_expr w) <= 14) (call_args y) /\
    forall f, find (fun f => eqbl (fold (fn_name f)) (fold (y_name y))) funs = Some f ->
      apart fold (fn_params f) (call_args y) = true /\ Forall (fun n => assoc fold consts n = None) (fn_params f) /\
      forall P', bind_args wraps fold P now here (fn_params f) (call_args y) P = Some P' ->
        forallb (usable (P := P') fold tk) (names_of (fn_body f)) = true
  end.
Fixpoint row_ok (before : bool) (l : list link) : Prop :=
  match l with
  | [] => True
  | x :: l' => Forall blank (li_before x) /\ Forall blank (li_after x) /\ opd_ok (li_opd x) /\
      (li_op x = NotEqual -> before = true -> li_before x <> []) /\ row_ok (opd_name (li_opd x)) l'
  end.
End Meaning.

Section Functions.
Context {dr : Dirs} {Cs : Consts}.
Variable C : cfg.
Variable D : list (text * define).
Variable ops : list opcode.
Hypothesis D_names : forall w, ~ name_start (hd0 w) -> tfind (key C w) D = None.
Hypothesis D_full : forall k d, tfind k D = Some d -> d_contents d <> None.
Hypothesis known_table : ops = opcode_list \/ ops = opcode_list_ez80.
Notation taken := (taken C D).
Variable funs : list func.
(** What the assembler keeps for such a macro. *)
Definition kept (f : func) : Prop := exists d b1 tx b2, tfind (key C (fn_name f)) D = Some d /\ d_args d = fn_params f /\ Forall name_ok (fn_params f) /\
  d_contents d = Some (b1 ++ tx ++ b2) /\ Forall blank b1 /\ writes (fn_body f) tx /\ Forall blank b2 /\ Forall plain_char tx /\ nest (fn_body f) <= 13 /\
  eqbl (key C (fn_name f)) (zs "__LINE") = false /\ eqbl (key C (fn_name f)) (zs "__FILE") = false.
Hypothesis D_funs : Forall kept funs.

(** The names of an expression, with the levels they take. *)
Lemma names_need {P : Params} {fr : Frame} k t s e : core C D ops k t s -> free C D e -> exists need, (Z.of_nat (wt need e) <= 5 + nest e) /\ forall m, mentions m e ->
  resolves C s (lookup (key C) t) m \/ exists v, lookup (key C) t m = Some v /\ meaning C s m (need m) v.
Proof.
  intros K F.
  destruct (choose_need (fun m j => ((j <= 5)%nat /\ (params = [] -> j = 0%nat)) /\ (resolves C s (lookup (key C) t) m \/ exists v, lookup (key C) t m = Some v /\ meaning C s m j v)) (names_of e)) as (need & Hn).
  - intros m Hm. exact (name_meaning C D ops D_names k t s e K F m Hm).
  - assert (Hm : forall m, mentions m e -> In m (names_of e)) by (intros m; apply (proj2 (mentions_names m))).
    exists (fun m => if existsb (eqbl m) (names_of e) then need m else 0%nat).
    assert (Ein : forall m, existsb (eqbl m) (names_of e) = true <-> In m (names_of e)).
    { intros m. rewrite existsb_exists. split; [intros (x & Hx & E); apply eqbl_eq in E; now subst|intros H; exists m; split; [exact H|now apply eqbl_eq]]. }
    split; [|intros m H; rewrite (proj2 (Ein m) (Hm m H)); apply (Hn m (Hm m H))].
    pose proof (proj2 wt_nest e) as W.
    match goal with |- Z.of_nat (wt ?f e) <= _ => assert (H : (wt f e <= 5 + wt no_need e)%nat) end; [|lia]. apply wt_most. intros m.
    destruct (existsb _ _) eqn:E; [|lia]. apply Ein in E. apply (Hn m E).
Qed.
Notation busy P fr lv k t here out q s := (@core P fr Cs C D ops k t s /\ @AsmProofs.at_ lv dr here out q s /\ s_depth s <= 1 /\ s_fwd s = false).
Lemma as_at s : s_fwd s = false -> s = ParserProofs.at_ s (s_depth s).
Proof. destruct s. cbn. intros ->. reflexivity. Qed.
Lemma full_at R p s : parse_num_full C R p 0 s = parse_num_full C R p 0 (ParserProofs.at_ s (s_depth s)).
Proof. destruct s. reflexivity. Qed.
(** The body of a macro of one line. *)
Lemma body_text R rf d e tx b1 b2 s : get_define rf s = Ok d s -> d_contents d = Some (b1 ++ tx ++ b2) -> Forall blank b1 -> writes e tx -> Forall blank b2 -> Forall plain_char tx -> s_erroc s = false ->
  parse_define R rf s = Ok (Some (tx ++ b2)) s.
Proof.
  intros Eg Dc Hw1 He Hw2 Hpl Hec. destruct (writes_first e tx He) as (c & q & Et & Hc). destruct (term_start_facts c Hc) as (N0 & N1 & _).
  assert (C1 : c <> 41 /\ c <> 35) by (split; intros ->; discriminate). destruct C1 as (C41 & C35).
  assert (Eskip : skip_ws (b1 ++ tx ++ b2) = tx ++ b2) by (rewrite skip_ws_app by exact Hw1; rewrite Et; now apply skip_ws_nonblank).
  assert (Eline : next_code_line (tx ++ b2) = []).
  { rewrite Et. cbn [app]. apply plain_line; [|exact C41|exact N0]. change (c :: q ++ b2) with ((c :: q) ++ b2). rewrite <- Et. apply Forall_app. split; [exact Hpl|now apply blank_plain]. }
  unfold parse_define. rewrite (bind_ok _ _ _ _ _ Eg). rewrite Dc. cbn [parse_define_loop]. rewrite bind_get, Hec.
  destruct (b1 ++ tx ++ b2) as [|c0 t0] eqn:Eall; [apply app_eq_nil in Eall as (_ & Eall); rewrite Et in Eall; discriminate|]. rewrite Eskip.
  replace (hd0 (tx ++ b2) =? 35) with false by (rewrite Et; cbn; lia).
  replace (is_eol (tx ++ b2)) with false.
  2:{ rewrite Et. cbn [app]. symmetry. destruct (is_eol (c :: q ++ b2)) eqn:B; [|reflexivity]. apply is_eol_cons in B. contradiction. }
  unfold skip_to_code_line_end. rewrite Eline. unfold seg. cbn [length Nat.leb]. rewrite Nat.sub_0_r, firstn_all. reflexivity.
Qed.
(** Reading a term. *)
Lemma term_run {P : Params} {fr : Frame} {lv : Level} m k t here out q s tm tx rest v : (20 <= m)%nat -> busy P fr lv k t here out q s ->
  writes_term tm tx -> forallb (usable (key C) taken) (term_names tm) = true -> nest_term tm <= 14 -> follows (term_name tm) rest ->
  val (c_wrap C) (key C) here t (Single tm) = Some v ->
  exists r', skip_ws r' = skip_ws rest /\ operand C (knot C m) 0 (tx ++ rest) s = Ok (Some (r', v)) s.
Proof.
  intros Hm (K & A & Dp & Fw) W F N Fo V. destruct (names_need k t s (Single tm) K F) as (need & Nw & Rs). cbn [wt nest] in Nw.
  assert (Hread : forall j n d, term_mentions n tm -> name_ok n -> (need n <= j)%nat -> d + Z.of_nat (need n) <= 20 -> name_reads C (knot C j) s (lookup (key C) t) d n).
  { intros j n d Hn Hok Hk Hd. destruct (Rs n Hn) as [R|(x & Ev & M)]; [now apply resolves_reads|].
    apply (meaning_reads C s n (need n) x M Hok); auto; [repeat split|exact (k_erroc _ _ _ _ _ _ K)|exact (core_sessions C D ops k t s K)]. }
  pose proof (proj1 (reads_all C s (lookup (key C) t) need (fun n => term_mentions n tm) Hread) tm) as T.
  destruct (T tx rest m 0 (s_depth s) W (fun _ H => H) Fo ltac:(lia) ltac:(lia) ltac:(lia)) as (r' & Er & Y). exists r'. split; [exact Er|].
  rewrite <- as_at in Y by exact Fw. unfold AsmSpec.val in V. change (value (c_wrap C) here (lookup (key C) t) (Single tm)) with (term_value (c_wrap C) here (lookup (key C) t) tm) in V. rewrite (a_pc _ _ _ _ A) in Y. destruct (term_value _ _ _ tm) as [x| |]; try discriminate. injection V as ->. exact Y.
Qed.
Lemma found_fun y f : find (fun f => eqbl (key C (fn_name f)) (key C (y_name y))) funs = Some f -> In f funs /\ key C (fn_name f) = key C (y_name y).
Proof. intros H. apply find_some in H as (H1 & H2). split; [exact H1|now apply eqbl_eq]. Qed.
(** Reading a call. *)
Lemma call_run {P : Params} {fr : Frame} {lv : Level} m k t here out q s y rest v : (20 <= m)%nat -> 1 <= k -> busy P fr lv k t here out q s ->
  opd_ok (c_wrap C) (key C) funs P t here taken consts (OCall y) -> hd0 rest <> 40 -> call_value (c_wrap C) (key C) funs P t here y = Some v ->
  exists s', operand C (knot C (S m)) 0 (call_text y ++ rest) s = Ok (Some (rest, v)) s' /\ busy P fr lv k t here out q s'.
Proof.
  intros Hm K1 (K & A & Dp & Fw) (On & (l & Ey) & Op & Ol & Ne & Ng & Oa & O) Nr V. unfold call_value in V.
  destruct (find _ funs) as [f|] eqn:Ef; [|discriminate]. destruct (bind_args _ _ _ _ _ _ _ _) as [P'|] eqn:Bi; [|discriminate].
  destruct (O f eq_refl) as (Ap & Oc & Ob). specialize (Ob P' Bi). destruct (found_fun y f Ef) as (If & Ek). rewrite Forall_forall in D_funs.
  destruct (D_funs f If) as (d & b1 & tx & b2 & Ed & Da & Np & Dc & B1 & W & B2 & Pl & Nb & L1 & L2). rewrite Ek in *.
  pose proof On as (Nu & (c0 & u0 & En & Ns) & Nc).
  change (call_text y) with (y_name y ++ args_part y). rewrite <- app_assoc.
  assert (Hd : hd0 (args_part y ++ rest) = 40) by (unfold args_part; rewrite Ey; reflexivity).
  assert (Hn : is_name_char (hd0 (args_part y ++ rest)) = false) by (rewrite Hd; reflexivity).
  unfold operand.
  assert (Eu : unary (y_name y ++ args_part y ++ rest) = (false, false, y_name y ++ args_part y ++ rest)).
  { rewrite En. unfold unary. cbn [app hd0 hd1]. unfold name_start in Ns. replace (c0 =? 126) with false by lia. replace (c0 =? 45) with false by lia. replace (c0 =? 43) with false by lia. reflexivity. }
  rewrite Eu. replace (hd0 (y_name y ++ args_part y ++ rest) =? 40) with false by (rewrite En; cbn [app hd0]; unfold name_start in Ns; lia).
  assert (Es : parse_single C (knot C (S m)) (y_name y ++ args_part y ++ rest) s = parse_name C (knot C (S m)) (y_name y ++ args_part y ++ rest) s).
  { unfold parse_single. rewrite En. cbn [app hd0]. unfold name_start in Ns. replace (c0 =? 43) with false by lia. replace (c0 =? 45) with false by lia. replace (c0 =? 36) with false by lia.
    replace (c0 =? 37) with false by lia. replace (c0 =? 39) with false by lia. replace (isalpha c0 || (c0 =? 95)) with true by (unfold isalpha, isupper, islower; lia). reflexivity. }
  assert (En2 : parse_name C (knot C (S m)) (y_name y ++ args_part y ++ rest) s = parse_define_value C (knot C (S m)) (args_part y ++ rest) (RG (key C (y_name y))) s).
  { unfold parse_name. rewrite (skip_name_app _ _ Nc Hn), seg_app. apply eqbl_neq in Nu. rewrite Nu.
    pose proof (k_frame _ _ _ _ _ _ K (y_name y)) as Kf. pose proof (k_labels _ _ _ _ _ _ K (y_name y)) as Kl. rewrite Ol in Kl.
    unfold search_local_defines. rewrite bind_assoc, bind_get, bind_ret. rewrite (k_args _ _ _ _ _ _ K).
    assert (Fa : find_arg (key C (y_name y)) frame = None) by (destruct (find_arg (key C (y_name y)) frame) as [r0|]; [destruct Kf as ((x & Kx & _) & _); unfold params in Kx; rewrite Op in Kx; discriminate|reflexivity]).
    rewrite Fa. unfold search_labels. rewrite bind_assoc, bind_get, bind_ret. destruct (tfind (key C (y_name y)) (s_labels s)) as [lb|]; [discriminate|].
    unfold search_defines. rewrite bind_assoc, bind_get, bind_assoc, bind_get. rewrite (k_args _ _ _ _ _ _ K), (k_defines _ _ _ _ _ _ K), Fa, Ed, L1, L2. rewrite bind_assoc, bind_ret, bind_ret.
    rewrite Ne, Ng. reflexivity. }
  assert (Main : exists s', parse_define_value C (knot C (S m)) (args_part y ++ rest) (RG (key C (y_name y))) s = Ok (Some (rest, Some v)) s' /\ busy P fr lv k t here out q s').
  2:{ destruct Main as (s' & E & B). exists s'. split; [|exact B]. rewrite <- En2, <- Es in E. now rewrite (bind_ok _ _ _ _ _ E). }
  unfold parse_define_value.
  assert (Eg : forall s1, s_defines s1 = D -> get_define (RG (key C (y_name y))) s1 = Ok d s1) by (intros s2 H; unfold get_define; cbn [lookup_ref]; now rewrite H, Ed).
  destruct (parse_args_run C D ops D_names D_full 20 (le_n 20) known_table P P' fr lv m k t here out q s y (RG (key C (y_name y))) d rest) as (ids & fr' & s1 & E1 & K2 & A2 & Id & Dp2); auto; [now rewrite Da|now rewrite Da|now rewrite Da|now rewrite Da|lia|].
  rewrite (bind_ok _ _ _ _ _ E1), bind_get, (bind_ok _ _ _ _ _ (Eg s1 (k_defines _ _ _ _ _ _ K2))), bind_upd.
  unfold start_session. rewrite bind_assoc, bind_get, bind_assoc, bind_upd, bind_ret.
  set (s2 := set_sess _ _). rewrite (k_sess _ _ _ _ _ _ K2 : s_sess (set_line (d_line d) s1) = k).
  assert (K3 : @core P' fr' Cs C D ops (k + 1) t s2).
  { pose proof (k_errs _ _ _ _ _ _ K2) as Ke. pose proof (k_sess _ _ _ _ _ _ K2) as Ks. destruct K2; constructor; try assumption; [cbn; lia|now apply errs_up]. }
  assert (A3 : @AsmProofs.at_ lv dr here out q s2) by (destruct A2; constructor; assumption).
  rewrite (bind_ok _ _ _ _ _ (body_text _ _ d (fn_body f) tx b1 b2 s2 (Eg s2 (k_defines _ _ _ _ _ _ K3)) Dc B1 W B2 Pl (k_erroc _ _ _ _ _ _ K3))).
  destruct (names_need (P := P') (fr := fr') (k + 1) t s2 (fn_body f) K3 Ob) as (need & Nw & Rs).
  assert (Hread : forall j n dd, mentions n (fn_body f) -> name_ok n -> (need n <= j)%nat -> dd + Z.of_nat (need n) <= 20 -> name_reads C (knot C j) s2 (lookup (P := P') (key C) t) dd n).
  { intros j n dd Hn2 Hok Hk Hd2. destruct (Rs n Hn2) as [R|(x & Ev & M)]; [now apply resolves_reads|].
    apply (meaning_reads C s2 n (need n) x M Hok); auto; [repeat split|exact (k_erroc _ _ _ _ _ _ K3)|exact (core_sessions C D ops (k + 1) t s2 K3)]. }
  pose proof (proj2 (reads_all C s2 (lookup (P := P') (key C) t) need (fun n => mentions n (fn_body f)) Hread) (fn_body f)) as T.
  assert (D2 : s_depth s2 <= 1) by (change (s_depth s2) with (s_depth s1); destruct Dp2 as [E|E]; rewrite E; lia).
  pose proof (full_end C s2 (lookup (P := P') (key C) t) need (fun n => mentions n (fn_body f)) Hread (fn_body f) tx [] b2 [] m (s_depth s2) T (Forall_nil _) W B2 (fun _ H => H) ltac:(lia) ltac:(lia) eq_refl) as HF.
  rewrite (a_pc _ _ _ _ A3) in HF. unfold AsmSpec.val in V. destruct (value _ _ _ (fn_body f)) as [x| |]; try discriminate. injection V as ->. cbn [yields app] in HF. rewrite app_nil_r in HF.
  rewrite <- full_at in HF. cbn [knot f_full]. rewrite bind_assoc, (bind_ok _ _ _ _ _ HF), bind_ret, bind_upd, bind_get.
  set (s3 := ParserProofs.at_ s2 (s_depth s2)). set (s4 := set_line _ s3).
  destruct (lead_none k (s_errs s2)) as (Q1 & Q2); [pose proof (errs_all _ _ (k_errs _ _ _ _ _ _ K2)) as H; eapply Forall_impl; [|exact H]; intros z (_ & Hz); lia|].
  change (s_errs s4) with (s_errs s2). unfold err_count. rewrite Q1. cbn [filter zlen length]. change (0 <? zlen []) with false. cbv iota. rewrite bind_ret.
  unfold end_session. rewrite bind_assoc, bind_get. change (s_errs s4) with (s_errs s2). rewrite Q1, Q2. cbn [existsb]. rewrite andb_false_r.
  rewrite bind_assoc, bind_get, bind_assoc, bind_upd, bind_assoc, bind_upd, bind_ret.
  match goal with |- context [bind (remove_arg_set ids) _ ?x] => set (s5 := x) end.
  assert (Sk : s_sess s5 = k) by (change (s_sess s1 + 1 - 1 = k); rewrite (k_sess _ _ _ _ _ _ K2 : s_sess s1 = k); lia).
  assert (K5 : @core P' fr' Cs C D ops k t s5) by (pose proof (k_errs _ _ _ _ _ _ K2) as Ke; destruct K2; constructor; try assumption).
  assert (A5 : @AsmProofs.at_ lv dr here out q s5) by (destruct A2; constructor; assumption).
  pose proof (k_frame _ _ _ _ _ _ K) as Kf. pose proof (k_pnames _ _ _ _ _ _ K) as Kp. pose proof (k_ids _ _ _ _ _ _ K5) as Ki. pose proof (k_args _ _ _ _ _ _ K5) as Ka. unfold frame in Ki, Ka.
  destruct ids as [id|].
  - destruct Id as (t0 & ->). exists (set_args fr s5). split; [|split; [|split; [|split]]].
    + unfold remove_arg_set. rewrite bind_assoc, bind_get. rewrite Ka. cbn [find_set del_set]. rewrite Nat.eqb_refl. reflexivity.
    + inversion Ki; subst. destruct K5; constructor; try assumption. reflexivity.
    + destruct A5; constructor; assumption.
    + exact D2.
    + reflexivity.
  - destruct Id as (-> & ->). exists s5. split; [reflexivity|]. split; [|split; [exact A5|split; [exact D2|reflexivity]]]. destruct K5; constructor; assumption.
Qed.
(** Reading an operand. *)
Lemma opd_run {P : Params} {fr : Frame} {lv : Level} m k t here out q s o rest v : (20 <= m)%nat -> 1 <= k -> busy P fr lv k t here out q s ->
  opd_ok (c_wrap C) (key C) funs P t here taken consts o -> follows (opd_name o) rest -> hd0 rest <> 40 -> opd_value (c_wrap C) (key C) funs P t here o = Some v ->
  exists r' s', skip_ws r' = skip_ws rest /\ operand C (knot C (S m)) 0 (opd_text o ++ rest) s = Ok (Some (r', v)) s' /\ busy P fr lv k t here out q s'.
Proof.
  intros Hm K1 B O F N V. destruct o as [tm tx|y].
  - destruct O as (O1 & O2 & O3). destruct (term_run (S m) k t here out q s tm tx rest v ltac:(lia) B O1 O2 O3 F V) as (r' & E & X). exists r', s. auto.
  - destruct (call_run m k t here out q s y rest v Hm K1 B O N V) as (s' & E & B'). exists rest, s'. auto.
Qed.
Lemma opd_first P t here o : opd_ok (c_wrap C) (key C) funs P t here taken consts o -> exists c q, opd_text o = c :: q /\ term_start c = true.
Proof.
  destruct o as [tm tx|y]; cbn [opd_ok opd_text].
  - intros (W & _). exact (term_start_ok tm tx W).
  - intros ((_ & (c & q & E & N) & _) & _). exists c. eexists. split; [change (call_text y) with (y_name y ++ args_part y); rewrite E; reflexivity|].
    unfold term_start, isalnum, isalpha, isupper, islower, isdigit. unfold name_start in N. lia.
Qed.
Lemma follows_sp nm w r : Forall blank w -> (w = [] -> follows nm r) -> follows nm (w ++ r).
Proof.
  intros Hw Hr. destruct Hw as [|x w Hx Hw]; [now apply Hr|].
  unfold blank in Hx. destruct nm, Hx as [-> | [-> | [-> | ->]]]; cbn [app follows hd0]; try reflexivity; split; try reflexivity; discriminate.
Qed.
Lemma row_follows P t here nm l w2 rest : row_ok (c_wrap C) (key C) funs P t here taken consts nm l -> Forall blank w2 -> is_eol rest = true ->
  follows nm (row_text l ++ w2 ++ rest) /\ hd0 (row_text l ++ w2 ++ rest) <> 40.
Proof.
  intros O Hw Hr. destruct l as [|x l].
  - cbn [row_text flat_map app].
    assert (Er : follows nm rest /\ hd0 rest <> 40).
    { destruct rest as [|c r]; [split; [destruct nm; [split; [reflexivity|discriminate]|reflexivity]|discriminate]|].
      apply is_eol_cons in Hr. unfold line_ender in Hr. assert (Hcc : c = 10 \/ c = 13 \/ c = 59 \/ c = 92) by lia.
      destruct nm; destruct Hcc as [->|[->|[->| ->]]]; (split; [try split; try reflexivity; discriminate|discriminate]). }
    split; [apply follows_sp; [exact Hw|intros _; exact (proj1 Er)]|].
    destruct Hw as [|c w Hc Hw]; [exact (proj2 Er)|]. cbn [app hd0]. unfold blank in Hc. lia.
  - cbn [row_ok] in O. destruct O as (B1 & B2 & O & Ne & _). cbn [row_text flat_map]. rewrite <- !app_assoc. split.
    + apply follows_sp; [exact B1|]. intros E. apply follows_op. intros E2. destruct nm; [|reflexivity]. now destruct (Ne E2 eq_refl).
    + destruct B1 as [|c w Hc Hw']; [destruct (li_op x); discriminate|]. cbn [app hd0]. unfold blank in Hc. lia.
Qed.
Lemma spelling_skip o r : skip_ws (spelling o ++ r) = spelling o ++ r.
Proof. destruct o; reflexivity. Qed.
(** The rest of the row. *)
Lemma row_run {P : Params} {fr : Frame} {lv : Level} m k t here out q w2 rest : (20 <= m)%nat -> 1 <= k -> Forall blank w2 -> is_eol rest = true ->
  forall l nm f total n p s v, (length l <= f)%nat -> busy P fr lv k t here out q s -> row_ok (c_wrap C) (key C) funs P t here taken consts nm l ->
  skip_ws p = skip_ws (row_text l ++ w2 ++ rest) -> row_value (c_wrap C) (key C) funs P t here total l = Some v ->
  exists s', ParserProofs.after C (knot C (S m)) f 0 total n p s = Ok (Some (rest, v)) s' /\ busy P fr lv k t here out q s'.
Proof.
  intros Hm K1 Hw Hr.
  assert (Es : skip_ws (w2 ++ rest) = rest).
  { rewrite (skip_ws_app w2 rest Hw). destruct rest as [|c r]; [reflexivity|]. apply is_eol_cons in Hr. apply skip_ws_nonblank. unfold line_ender in Hr. unfold blank. lia. }
  induction l as [|x l IH]; intros nm f total n p s v Lf B O E V.
  - cbn [row_value] in V. injection V as ->. cbn [row_text flat_map app] in E. rewrite Es in E. unfold ParserProofs.after.
    rewrite (bind_ok _ _ _ (OpEnd rest) s) by (rewrite <- E; apply get_op_end; now rewrite E).
    unfold dec_depth. rewrite bind_assoc, bind_get, bind_upd. eexists. split; [reflexivity|]. destruct B as (K & A & Dp & Fw).
    split; [destruct K; constructor; assumption|]. split; [destruct A; constructor; assumption|]. split; [cbn; lia|exact Fw].
  - cbn [row_ok] in O. destruct O as (B1 & B2 & O & Ne & Or). cbn [row_value] in V.
    destruct (opd_value _ _ _ _ _ _ (li_opd x)) as [b|] eqn:Eb; [|discriminate]. destruct (compute _ _ total b) as [c| |] eqn:Ec; try discriminate.
    destruct (opd_first P t here _ O) as (c1 & q1 & Eo & Hc1). destruct (row_follows P t here _ l w2 rest Or Hw Hr) as (F1 & F2).
    destruct (opd_run m k t here out q s (li_opd x) (row_text l ++ w2 ++ rest) b Hm K1 B O F1 F2 Eb) as (r' & s' & Er & Ex & B').
    destruct f as [|f]; [cbn in Lf; lia|]. unfold ParserProofs.after.
    rewrite (bind_ok _ _ _ (OpNext (ParserProofs.op_of (li_op x)) (opd_text (li_opd x) ++ row_text l ++ w2 ++ rest)) s).
    + pose proof (num_loop_operand C (knot C (S m)) f 0 total (ParserProofs.op_of (li_op x)) (Some n) (opd_text (li_opd x) ++ row_text l ++ w2 ++ rest) s) as N. rewrite Ex in N. rewrite N, combine_ok, Ec.
      apply (IH (opd_name (li_opd x))); auto. cbn in Lf. lia.
    + rewrite Eo. cbn [app]. apply get_op_next with (w2 := li_after x); [|exact B2|exact Hc1]. rewrite E. cbn [row_text flat_map]. rewrite <- !app_assoc, skip_ws_app, spelling_skip by exact B1. rewrite Eo. reflexivity.
Qed.
Lemma row_length l : (length l <= length (row_text l))%nat.
Proof. induction l as [|x l IH]; [apply Nat.le_refl|]. unfold row_text in *. cbn [flat_map length]. rewrite !app_length. destruct (li_op x); cbn [spelling zs length]; cbn; lia. Qed.
Lemma combine_first {A} (a : Z) (g : Z -> M (option A)) : combine C M_NONE 0 a g = g a.
Proof. reflexivity. Qed.
Definition whole_value (P : Params) (t : table) (here : Z) (first : opd) (l : list link) : option Z :=
  match opd_value (c_wrap C) (key C) funs P t here first with Some a => row_value (c_wrap C) (key C) funs P t here a l | None => None end.
(** An expression with calls, in any state the assembler is in between two lines, wherever it is read. *)
Theorem c71_functions_partial {P : Params} {fr : Frame} {lv : Level} m k t here out q s first l w1 w2 rest v :
  (20 <= m)%nat -> 1 <= k -> @core P fr Cs C D ops k t s -> @AsmProofs.at_ lv dr here out q s ->
  Forall blank w1 -> Forall blank w2 -> is_eol rest = true ->
  opd_ok (c_wrap C) (key C) funs P t here taken consts first -> row_ok (c_wrap C) (key C) funs P t here taken consts (opd_name first) l ->
  whole_value P t here first l = Some v ->
  exists s', parse_num (knot C (S (S m))) (w1 ++ opd_text first ++ row_text l ++ w2 ++ rest) s = Ok (Some v) s' /\ @core P fr Cs C D ops k t s' /\ @AsmProofs.at_ lv dr here out q s'.
Proof.
  intros Hm K1 K A Hw1 Hw2 Hr O Or V. unfold whole_value in V. destruct (opd_value _ _ _ _ _ _ first) as [a|] eqn:Ea; [|discriminate].
  destruct (opd_first P t here _ O) as (c1 & q1 & Eo & Hc1). destruct (row_follows P t here _ l w2 rest Or Hw2 Hr) as (F1 & F2).
  unfold parse_num. rewrite bind_upd. cbn [knot f_full]. unfold parse_num_full. rewrite bind_assoc, bind_upd, bind_assoc, bind_get, bind_assoc, bind_upd.
  match goal with |- context [bind _ _ ?x = _] => set (s1 := x) end.
  assert (B : busy P fr lv k t here out q s1) by (split; [destruct K; constructor; assumption|split; [destruct A; constructor; assumption|split; [cbn; lia|reflexivity]]]).
  match goal with |- context [RECURSION_LIMIT <? ?x] => replace (RECURSION_LIMIT <? x) with false by reflexivity end. cbv iota zeta.
  assert (Es : skip_ws (w1 ++ opd_text first ++ row_text l ++ w2 ++ rest) = opd_text first ++ row_text l ++ w2 ++ rest).
  { apply (skip_blanks w1 _ c1 (q1 ++ row_text l ++ w2 ++ rest) Hw1); [rewrite Eo; reflexivity|]. exact (proj1 (term_start_facts c1 Hc1)). }
  rewrite Es. destruct (opd_text first ++ row_text l ++ w2 ++ rest) as [|x y] eqn:E; [rewrite Eo in E; discriminate|]. rewrite <- E. clear Es.
  destruct (opd_run m k t here out q s1 first (row_text l ++ w2 ++ rest) a Hm K1 B O F1 F2 Ea) as (r' & s' & Er & Ex & B').
  pose proof (num_loop_operand C (knot C (S m)) (length (opd_text first ++ row_text l ++ w2 ++ rest)) 0 0 M_NONE None (opd_text first ++ row_text l ++ w2 ++ rest) s1) as N. rewrite Ex in N.
  rewrite combine_first in N.
  destruct (row_run m k t here out q w2 rest Hm K1 Hw2 Hr l (opd_name first) (length (opd_text first ++ row_text l ++ w2 ++ rest)) a a r' s' v) as (s2 & E2 & K2 & A2 & _); auto; [rewrite !app_length; pose proof (row_length l); lia|].
  rewrite E2 in N. rewrite (bind_ok _ _ _ _ _ N). exists s2. split; [reflexivity|split; assumption].
Qed.
End Functions.

(** ** Examples *)
(** The macro [#define sum(x,y) x+y*2], and [2*sum(3,4)+1] after it: (3+4)*2 = 14, from left to right,
    and 2*14+1 = 29. *)
Definition f_cfg : cfg := mkcfg true false false false false false (fun _ => None) (fun _ => 0) (zs "/p") (fun _ => []) true.
Definition f_D : list (text * define) := [(zs "SUM", mkdefine (zs "sum") 1 (zs "in.asm") (Some (zs " x+y*2")) [zs "x"; zs "y"])].
Definition f_sum : func := mkfunc (zs "sum") [zs "x"; zs "y"]
  (Bin (Bin (Single (Leaf NoSign (Name (zs "x")))) Plus (Leaf NoSign (Name (zs "y")))) Times (Leaf NoSign (Num (Decimal (zs "2"))))).
Definition f_state : st := set_sess 1 (init_state false (zs "in.asm") [] f_D).
Definition f_num (n : text) : written := ex_at [] (ex_num n) n [].
Definition f_call : opd := OCall (mkcall (zs "Sum") (Some [f_num (zs "3"); f_num (zs "4")]) []).
Definition f_two : opd := OTerm (Leaf NoSign (Num (Decimal (zs "2")))) (zs "2").
Definition f_row : list link := [mklink [] Times [] f_call; mklink [32] Plus [] (OTerm (Leaf NoSign (Num (Decimal (zs "1")))) (zs "1"))].
Lemma f_core : @core no_params [] no_consts f_cfg f_D (instructions false) 1 [] f_state.
Proof.
  constructor; [intros n; reflexivity|reflexivity..|constructor|constructor|intros n; reflexivity|intros n v H; discriminate H|intros n _; reflexivity|intros n _; reflexivity].
Qed.
Lemma f_kept : Forall (kept f_cfg f_D) [f_sum].
Proof.
  constructor; [|constructor]. exists (mkdefine (zs "sum") 1 (zs "in.asm") (Some (zs " x+y*2")) [zs "x"; zs "y"]), [32], (zs "x+y*2"), [].
  split; [vm_compute; reflexivity|]. split; [reflexivity|]. split; [repeat (apply Forall_cons; [now apply name_okb_ok|]); constructor|]. split; [reflexivity|].
  split; [blanks|]. split.
  - change (zs "x+y*2") with ((zs "x" ++ [] ++ spelling Plus ++ [] ++ zs "y") ++ [] ++ spelling Times ++ [] ++ zs "2").
    apply W_bin; [apply W_bin; [apply w_name; now apply name_okb_ok|constructor|constructor| |discriminate]|constructor|constructor| |discriminate].
    + assert (W : writes (ex_name (zs "y")) (zs "y")) by (apply w_name; now apply name_okb_ok). inversion W. assumption.
    + assert (W : writes (ex_num (zs "2")) (zs "2")) by exact (proj1 (proj2 (ex_mnum (P := no_params) [] (zs "2") (Forall_nil _) ltac:(discriminate) eq_refl ltac:(vm_compute; discriminate)))). inversion W. assumption.
  - split; [constructor|]. split; [apply Forall_forall; intros c Hc; revert c Hc; apply Forall_forall; vm_compute; repeat (apply Forall_cons; [unfold plain_char; repeat split; lia|]); constructor|]. split; [vm_compute; discriminate|]. split; vm_compute; reflexivity.
Qed.
Example c71_example : exists s', parse_num (knot f_cfg 22) (zs "2*Sum(3,4) +1") f_state = Ok (Some 29) s' /\ s_mem s' = [] /\ s_args s' = [].
Proof.
  pose (dr := (fresh_dirs [] : Dirs)). pose (lv := eq 0 : Level).
  assert (Wn : forall n : text, n <> [] -> forallb isdigit n = true -> zlen n <= 254 -> writes_term (Leaf NoSign (Num (Decimal n))) n).
  { intros n N1 N2 N3. assert (W : writes (ex_num n) n) by exact (proj1 (proj2 (ex_mnum (P := no_params) [] n (Forall_nil _) N1 N2 N3))). inversion W. assumption. }
  destruct (@c71_functions_partial dr no_consts f_cfg f_D (instructions false)) with (P := no_params) (fr := ([] : Frame)) (lv := lv) (funs := [f_sum]) (m := 20%nat) (k := 1) (t := @nil (text * Z))
    (here := 0) (out := @nil Z) (q := @nil pexpr) (s := f_state) (first := f_two) (l := f_row) (w1 := @nil Z) (w2 := @nil Z) (rest := @nil Z) (v := 29) as (s' & E & K & A).
  - intros w Hw. unfold f_D. cbn [tfind]. destruct (eqbl (key f_cfg w) (zs "SUM")) eqn:E; [|reflexivity]. apply eqbl_eq in E. exfalso. apply Hw.
    destruct w as [|c w]; [discriminate E|]. change (key f_cfg (c :: w)) with (toupper c :: strup w) in E. injection E as E _. unfold toupper, islower in E. cbn [hd0]. unfold name_start.
    destruct (_ && _) eqn:B in E; lia.
  - intros k d H. unfold f_D in H. cbn [tfind] in H. destruct (eqbl k _); [injection H as <-; discriminate|discriminate].
  - now left.
  - exact f_kept.
  - lia.
  - lia.
  - exact f_core.
  - constructor; reflexivity.
  - constructor.
  - constructor.
  - reflexivity.
  - split; [apply Wn; [discriminate|reflexivity|vm_compute; discriminate]|]. split; [reflexivity|vm_compute; discriminate].
  - cbn [row_ok f_row li_before li_after li_op li_opd opd_name f_call]. split; [constructor|]. split; [constructor|]. split; [|split; [discriminate|]].
    + split; [now apply name_okb_ok|]. split; [eexists; reflexivity|]. split; [reflexivity|]. split; [reflexivity|]. split; [vm_compute; reflexivity|]. split; [vm_compute; reflexivity|]. split.
      * repeat (apply Forall_cons; [split; [split; [apply ex_mnum; [constructor|discriminate|reflexivity|vm_compute; discriminate]|reflexivity]|vm_compute; discriminate]|]). constructor.
      * intros f Hf. vm_compute in Hf. injection Hf as <-. split; [vm_compute; reflexivity|]. split; [repeat constructor|]. intros P' HP. vm_compute in HP. injection HP as <-. vm_compute. reflexivity.
    + split; [blanks|]. split; [constructor|]. split; [|split; [discriminate|exact I]]. split; [apply Wn; [discriminate|reflexivity|vm_compute; discriminate]|]. split; [reflexivity|vm_compute; discriminate].
  - vm_compute. reflexivity.
  - exists s'. split; [exact E|]. split; [exact (a_mem _ _ _ _ A)|exact (k_args _ _ _ _ _ _ K)].
Qed.
(** The same in a whole program, where the value is wanted at once and where it is not. *)
Example c71_program : let t := zs "#define sum(x,y) x+y*2" ++ [10] ++ zs "size .equ 2*sum(3,4)+1" ++ [10] ++ zs " .db size, 2*sum(3,4)+1" ++ [10] ++ zs "#if sum(1,1)-4" ++ [10] ++ zs " .db 99" ++ [10] ++ zs "#endif" ++ [10] in
  match main 200 (mkworld (fun n => if eqbl n (zs "in.asm") then Some t else None) (fun _ => 0) (zs "/p") (fun _ => []) true) [zs "in.asm"; zs "out.bin"] with Done 0 l _ => l | _ => [] end
  = [(zs "out.bin", [29; 29])].
Proof. vm_compute. reflexivity. Qed.
Print Assumptions c71_functions_partial.
