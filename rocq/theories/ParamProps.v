(** Lists of parameters that are refused (preop.cpp:678-710). *)
From Coq Require Import String.
From Verif Require Import Programs.
From Verif Require Import Base BaseProofs State MonadProofs UtilsModel ErrorsModel StorageModel ParserModel PassTwoModel
  PreopModel PassOneModel DirectiveModel Knot MainModel Validate UtilsSpec UtilsProofs UtilsProps StorageProofs PassTwoSpec PassTwoProofs
  ParserSpec ParserProofs ParserProps StringProps InstrSpec MatchSpec MatchProps AsmSpec AsmExpand AsmProofs AsmData AsmLine
  CondSpec CondRun MacroSpec MacroRun MacroDefs DirProps DupProps.

Lemma key_ci C a b : c_case C = false -> key C a = key C b -> eqbl_ci a b = true.
Proof.
  unfold key. intros ->. revert b. induction a as [|c a IH]; intros [|d b] E; try discriminate; [reflexivity|].
  cbn in E. injection E as E1 E2. cbn [eqbl_ci]. apply andb_true_iff. split; [|now apply IH].
  unfold toupper, tolower, isupper, islower in *. repeat match goal with H : context [if ?b then _ else _] |- _ => destruct b eqn:? | |- context [if ?b then _ else _] => destruct b eqn:? end; lia.
Qed.
Lemma distinct_snoc (k : text -> text) l p : distinct k (l ++ [p]) = distinct k l && negb (existsb (fun a => eqbl (k a) (k p)) l).
Proof.
  induction l as [|a l IH]; [reflexivity|]. cbn [app distinct existsb]. rewrite IH, forallb_app. cbn [forallb]. rewrite andb_true_r, negb_orb.
  destruct (forallb _ l), (distinct k l), (eqbl (k a) (k p)), (existsb _ l); reflexivity.
Qed.
Lemma seen_key C p l : existsb (fun a => if c_case C then eqbl p a else eqbl_ci p a) l = existsb (fun a => eqbl (key C a) (key C p)) l.
Proof.
  apply Bool.eq_iff_eq_true. rewrite !existsb_exists. split; intros (a & I & H); exists a; (split; [exact I|]).
  - destruct (c_case C) eqn:Cc; [apply eqbl_eq in H; subst; apply eqbl_refl|]. rewrite (ci_key C p a Cc H). apply eqbl_refl.
  - apply eqbl_eq in H. destruct (c_case C) eqn:Cc; [unfold key in H; rewrite Cc in H; subst; apply eqbl_refl|]. now apply (key_ci C).
Qed.

(** The list has the same name twice, or more than sixteen names. *)
Definition too_much (C : cfg) (names : list text) : Prop := distinct (key C) names = false \/ (16 < length names)%nat.
Definition stopped (s : st) : st := set_erroc true (set_exitc (Z.max 3 (s_exitc s)) s).

Lemma arg_defs_bad C x rest : forall l done s f expecting d,
  Forall param_ok l -> (length done <= 16)%nat -> distinct (key C) done = true -> too_much C (done ++ map pa_name l) ->
  (length l <= f)%nat -> d_args d = done -> tfind x (s_defines s) = Some d ->
  exists t, arg_defs_loop C f (RG x) expecting (params_text l ++ 41 :: rest) s = Ok None (stopped (set_defines t s)) /\
    forall k, eqbl k x = false -> tfind k t = tfind k (s_defines s).
Proof.
  induction l as [|p l IH]; intros done s f expecting d Ol Ld Dd Bad Lf Da Fd.
  { cbn [map] in Bad. rewrite app_nil_r in Bad. destruct Bad as [B|B]; [congruence|lia]. }
  destruct f as [|f]; [cbn in Lf; lia|]. inversion Ol as [|? ? Op Ol']; subst.
  cbn [arg_defs_loop]. set (u := match l with [] => 41 :: rest | _ => 44 :: params_text l ++ 41 :: rest end).
  assert (Et : params_text (p :: l) ++ 41 :: rest = pa_before p ++ pa_name p ++ pa_after p ++ u).
  { unfold u. destruct l; cbn [params_text]; unfold param_text; rewrite <- !app_assoc; reflexivity. }
  destruct (written_operand [44] _ (or_intror eq_refl) (param_written p Op)) as (ps & El & Oo). cbn [w_text w_before w_after w_param] in El, Oo.
  assert (Eu : hd0 u = 44 /\ tl u = params_text l ++ 41 :: rest \/ u = 41 :: rest /\ l = []) by (unfold u; destruct l; [right; auto|left; split; reflexivity]).
  assert (Ee : extract_arg (params_text (p :: l) ++ 41 :: rest) expecting s = Ok (Some (pa_name p), if hd0 u =? 44 then tl u else u, hd0 u =? 44) s).
  { rewrite Et, <- El. apply (extract_operand _ u expecting s Oo). unfold u. destruct l; [right; right; exists 41, rest; auto|left; eexists; reflexivity]. }
  rewrite (bind_ok _ _ _ _ _ Ee).
  assert (Eg : get_define (RG x) s = Ok d s) by (unfold get_define; cbn [lookup_ref]; now rewrite Fd).
  rewrite (bind_ok _ _ _ _ _ Eg).
  assert (Fa : (show_fatal_error ;;; ret (@None text)) s = Ok None (stopped (set_defines (s_defines s) s))).
  { unfold show_fatal_error, raise_exit, EXIT_FATAL_ERROR, stopped. repeat first [rewrite bind_assoc|rewrite bind_get|rewrite bind_upd|rewrite bind_ret].
    replace (if s_exitc s <? 3 then 3 else s_exitc s) with (Z.max 3 (s_exitc s)) by (destruct (s_exitc s <? 3) eqn:L; lia). destruct s; reflexivity. }
  destruct (Nat.eqb (length (d_args d)) MAX_ARGS) eqn:E16; [exists (s_defines s); split; [exact Fa|auto]|].
  rewrite seen_key. destruct (existsb (fun a => eqbl (key C a) (key C (pa_name p))) (d_args d)) eqn:Es; [exists (s_defines s); split; [exact Fa|auto]|].
  set (d2 := d_with d (d_args d ++ [pa_name p])).
  assert (Ep : put_define (RG x) d2 s = Ok tt (set_defines (tset x d2 (s_defines s)) s)) by (unfold put_define; cbn [lookup_ref]; now rewrite Fd).
  fold (d_with d (d_args d ++ [pa_name p])). fold d2. rewrite (bind_ok _ _ _ _ _ Ep).
  replace (if hd0 u =? 44 then tl u else u) with (params_text l ++ 41 :: rest).
  2:{ destruct Eu as [(-> & ->)|(-> & ->)]; reflexivity. }
  apply Nat.eqb_neq in E16. unfold MAX_ARGS in E16.
  destruct (IH (d_args d ++ [pa_name p]) (set_defines (tset x d2 (s_defines s)) s) f (hd0 u =? 44) d2) as (t & E & Ht); auto.
  - rewrite app_length. cbn [length]. lia.
  - rewrite distinct_snoc, Dd, Es. reflexivity.
  - rewrite <- app_assoc. exact Bad.
  - cbn [length] in Lf. lia.
  - cbn [s_defines set_defines]. apply tfind_tset_same.
  - exists t. rewrite E. split; [reflexivity|]. intros k Hk. rewrite (Ht k Hk). cbn [s_defines set_defines]. now rewrite tfind_tset, Hk.
Qed.
Lemma add_named C s m : m <> [] -> free_name C s m -> exists D b d,
  add_define C m true s = Ok (Some (RG (key C m), b)) (set_defines D s) /\ tfind (key C m) D = Some d /\
  forall k, eqbl k (key C m) = false -> tfind k D = tfind k (s_defines s).
Proof.
  intros N (L & A & N1 & N2). unfold add_define. destruct m as [|c m]; [congruence|]. set (k := key C (c :: m)) in *.
  assert (I : key C k = k) by apply key_idem.
  assert (Sl : search_labels C k s = Ok None s) by (unfold search_labels; rewrite bind_get, I, L; reflexivity).
  assert (Sd : search_defines C k true s = Ok (match tfind k (s_defines s) with Some _ => Some (RG k) | None => None end) s).
  { unfold search_defines. rewrite bind_get, bind_get, I. rewrite A, (eqbl_false _ _ N1), (eqbl_false _ _ N2). reflexivity. }
  destruct (tfind k (s_defines s)) as [d|] eqn:E; eexists _, _, _.
  - split; [|split; [apply tfind_tset_same|]].
    + rewrite (bind_ok _ _ _ _ _ Sl), (bind_ok _ _ _ _ _ Sd). unfold bind at 1. rewrite (get_define_ok (RG k) s d E). unfold bind at 1, put_define at 1. cbn [lookup_ref]. rewrite E. reflexivity.
    + intros k2 H. now rewrite tfind_tset, H.
  - split; [|split; [apply tfind_tset_same|]].
    + rewrite (bind_ok _ _ _ _ _ Sl), (bind_ok _ _ _ _ _ Sd). rewrite bind_get, bind_get, bind_get, bind_upd. reflexivity.
    + intros k2 H. now rewrite tfind_tset, H.
Qed.
Lemma params_len l rest : (length l <= S (length (params_text l ++ 41%Z :: rest)))%nat.
Proof.
  rewrite app_length. cbn [length]. cut (length l <= S (length (params_text l)))%nat; [lia|].
  induction l as [|p [|q l] IH]; [cbn; lia..|]. change (params_text (p :: q :: l)) with (param_text p ++ 44 :: params_text (q :: l)). rewrite app_length. cbn [length] in *. lia.
Qed.
Lemma params_short l rest : (length l < S (length (params_text l ++ 41%Z :: rest)))%nat.
Proof.
  rewrite app_length. cbn [length]. cut (length l <= S (length (params_text l)))%nat; [lia|].
  induction l as [|p [|q l] IH]; [cbn; lia..|]. change (params_text (p :: q :: l)) with (param_text p ++ 44 :: params_text (q :: l)). rewrite app_length. cbn [length] in *. lia.
Qed.
Lemma parse_bad C k l rest s d : Forall param_ok l -> too_much C (map pa_name l) -> tfind k (s_defines s) = Some d ->
  exists t, parse_arg_defs C (params_text l ++ 41 :: rest) (RG k) s = Ok None (stopped (set_defines t s)) /\ forall m, eqbl m k = false -> tfind m t = tfind m (s_defines s).
Proof.
  intros Op Bad Fd. unfold parse_arg_defs. unfold bind at 1. rewrite (get_define_ok (RG k) s d Fd). unfold bind at 1, put_define at 1. cbn [lookup_ref]. rewrite Fd.
  set (d0 := mkdefine _ _ _ _ []). set (s1 := set_defines (tset k d0 (s_defines s)) s).
  destruct (arg_defs_bad C k rest l [] s1 (S (length (params_text l ++ 41 :: rest))) false d0) as (t & E & Ht); auto.
  - cbn. lia.
  - apply params_len.
  - cbn [s1 s_defines set_defines]. apply tfind_tset_same.
  - exists t. split; [exact E|]. intros m Hm. rewrite (Ht m Hm). cbn [s1 s_defines set_defines]. now rewrite tfind_tset, Hm.
Qed.

(** #define name(list) and #macro name(list): refused, all other names keep their definitions. *)
Theorem c87_define : forall C n s word gap name l rest, eqbl_ci word (zs "define") = true -> gap_ok gap -> ParserSpec.name_ok name -> free_name C s name ->
  Forall param_ok l -> too_much C (map pa_name l) ->
  exists t, handle_preop C (knot C n) (word ++ gap ++ name ++ 40 :: params_text l ++ 41 :: rest) s = Ok None (stopped (set_last_define (Some (RG (key C name))) (set_defines t s))) /\
    forall m, eqbl m (key C name) = false -> tfind m t = tfind m (s_defines s).
Proof.
  intros C n s word gap name l rest W G Nm Fr Op Bad. rewrite (define_line C n s word gap name (40 :: params_text l ++ 41 :: rest) W G Nm eq_refl).
  destruct (add_named C s name ltac:(destruct Nm as (_ & (c & u & -> & _) & _); discriminate) Fr) as (D & b & d & E1 & Fd & M).
  rewrite (bind_ok _ _ _ _ _ E1). rewrite bind_upd. cbn [hd0 tl]. change (40 =? 40) with true. cbv iota.
  destruct (parse_bad C (key C name) l rest (set_last_define (Some (RG (key C name))) (set_defines D s)) d Op Bad Fd) as (t & E2 & Ht).
  rewrite (bind_ok _ _ _ _ _ E2). exists t. split; [reflexivity|]. intros m Hm. rewrite (Ht m Hm). cbn [s_defines set_defines set_last_define]. now apply M.
Qed.
Theorem c87_macro : forall C n s word gap name b l rest, eqbl_ci word (zs "macro") = true -> gap_ok gap -> ParserSpec.name_ok name -> Forall UtilsSpec.blank b -> free_name C s name ->
  Forall param_ok l -> too_much C (map pa_name l) ->
  exists t, handle_preop C (knot C n) (word ++ gap ++ name ++ b ++ 40 :: params_text l ++ 41 :: rest) s = Ok None (stopped (set_defines t s)) /\
    forall m, eqbl m (key C name) = false -> tfind m t = tfind m (s_defines s).
Proof.
  intros C n s word gap name b l rest W (Ng & Gb) Nm Fb Fr Op Bad.
  destruct (preop_word word [zs "macro"] (gap ++ name ++ b ++ 40 :: params_text l ++ 41 :: rest) P_MACRO) as (E1 & E2 & E3).
  { unfold word_is. cbn [existsb]. now rewrite W. }
  { repeat (constructor; [now split|]). constructor. }
  { destruct gap as [|g gap]; [congruence|]. inversion Gb; subst. cbn [app hd0]. now apply (blank_space g). }
  unfold handle_preop. rewrite E1, E2, E3. rewrite skip_ws_app by exact Gb. pose proof Nm as (_ & (c & u & En & Ns) & Nc).
  assert (Sk : forall y, skip_ws (name ++ y) = name ++ y). { intros y. rewrite En. cbn [app]. apply skip_ws_nonblank. unfold UtilsSpec.blank, name_start in *. lia. }
  rewrite Sk. unfold preop_macro.
  assert (Ie : forall y, is_eol (name ++ y) = false). { intros y. rewrite En. cbn [app is_eol]. unfold name_start in Ns. lia. }
  assert (Hr : is_name_char (hd0 (b ++ 40 :: params_text l ++ 41 :: rest)) = false).
  { destruct b as [|c1 b]; [reflexivity|]. inversion Fb as [|? ? Hx _]; subst. cbn [app hd0]. now apply (blank_space c1). }
  rewrite Ie, (skip_name_app name _ Nc Hr), seg_app.
  destruct (add_named C s name ltac:(rewrite En; discriminate) Fr) as (D & nw & d & E4 & Fd & M).
  rewrite (bind_ok _ _ _ _ _ E4). rewrite skip_ws_app by exact Fb. rewrite skip_ws_nonblank by (unfold UtilsSpec.blank; lia). cbn [hd0 tl]. change (40 =? 40) with true. cbv iota zeta.
  destruct (parse_bad C (key C name) l rest (set_defines D s) d Op Bad Fd) as (t & E5 & Ht).
  rewrite (bind_ok _ _ _ _ _ E5). exists t. split; [reflexivity|]. intros m Hm. rewrite (Ht m Hm). now apply M.
Qed.
(** The pass ends there: no further line is read. *)
Theorem c87_ends : forall C m indent v more s f s1, Forall UtilsSpec.blank indent -> s_erroc s = false ->
  handle_preop C (knot C m) (v ++ more) s = Ok None s1 ->
  pass_loop (knot C (S (S m))) (S f) ((indent ++ 35 :: v) ++ more) s = Ok tt s1.
Proof.
  intros C m indent v more s f s1 B Ne Hp.
  assert (E : f_line (knot C (S (S m))) ((indent ++ 35 :: v) ++ more) s = Ok None s1).
  { change (f_line (knot C (S (S m)))) with (line_loop C (knot C (S m)) (S m)). rewrite dir_line by exact B. rewrite (bind_ok _ _ _ _ _ Hp). reflexivity. }
  assert (Tn : exists c u, (indent ++ 35 :: v) ++ more = c :: u) by (destruct indent; cbn; eauto). destruct Tn as (c & u & Tn). rewrite Tn in *.
  cbn [pass_loop]. rewrite bind_get, Ne. rewrite (bind_ok _ _ _ _ _ E). reflexivity.
Qed.
(** The hypotheses are met: the third name is the first in other letters. *)
Definition ex_params : list param := [mkparam [] (zs "aa") []; mkparam (zs " ") (zs "b") (zs " "); mkparam [] (zs "Aa") []].
Ltac name_done := match goal with |- ParserSpec.name_ok ?l => let r := eval vm_compute in l in change l with r end;
  split; [discriminate|]; split; [eexists _, _; split; [reflexivity|unfold name_start; lia]|]; repeat (apply Forall_cons; [unfold ParserSpec.name_char; lia|]); apply Forall_nil.
Lemma ex_params_ok : Forall param_ok ex_params.
Proof.
  assert (B0 : Forall UtilsSpec.blank []) by constructor. assert (B1 : Forall UtilsSpec.blank (zs " ")) by (repeat constructor; unfold UtilsSpec.blank; lia).
  assert (Na : ParserSpec.name_ok (zs "aa")) by name_done. assert (Nb : ParserSpec.name_ok (zs "b")) by name_done. assert (Nc : ParserSpec.name_ok (zs "Aa")) by name_done.
  apply Forall_cons; [|apply Forall_cons; [|apply Forall_cons; [|apply Forall_nil]]].
  - split; [exact B0|]. split; [exact Na|]. split; [exact B0|vm_compute; discriminate].
  - split; [exact B1|]. split; [exact Nb|]. split; [exact B1|vm_compute; discriminate].
  - split; [exact B0|]. split; [exact Nc|]. split; [exact B0|vm_compute; discriminate].
Qed.
Example c87_case : too_much ex_conf (map pa_name ex_params) /\ ~ too_much ex_conf [zs "aa"; zs "b"] /\
  exists t, handle_preop ex_conf (knot ex_conf 20) (zs "define x1(aa, b ,Aa) aa+b") ex_state = Ok None (stopped (set_last_define (Some (RG (zs "X1"))) (set_defines t ex_state))) /\
    tfind (zs "LAB") t = tfind (zs "LAB") (s_defines ex_state).
Proof.
  assert (B : too_much ex_conf (map pa_name ex_params)) by (left; reflexivity).
  split; [exact B|]. split; [intros [H|H]; [discriminate H|cbn in H; lia]|].
  destruct (c87_define ex_conf 20 ex_state (zs "define") (zs " ") (zs "x1") ex_params (zs " aa+b") eq_refl) as (t & E & M).
  - split; [discriminate|]. repeat constructor; unfold UtilsSpec.blank; lia.
  - exact name_x1.
  - split; [reflexivity|]. split; [reflexivity|]. split; discriminate.
  - exact ex_params_ok.
  - exact B.
  - exists t. split; [exact E|]. apply M. reflexivity.
Qed.
(** Every other list is accepted: a name without a definition gets the parameters and the text. *)
Theorem c87_accepted : forall C n s word gap name l body rest, eqbl_ci word (zs "define") = true -> gap_ok gap -> ParserSpec.name_ok name -> free_name C s name -> tfind (key C name) (s_defines s) = None ->
  Forall param_ok l -> ~ too_much C (map pa_name l) -> Forall in_text body -> is_eol body = false -> text_over rest ->
  exists t d, handle_preop C (knot C n) (word ++ gap ++ name ++ 40 :: params_text l ++ 41 :: body ++ rest) s = Ok (Some rest) (set_last_define (Some (RG (key C name))) (set_defines t s)) /\
    (forall m, tfind m t = if eqbl m (key C name) then Some d else tfind m (s_defines s)) /\ d_args d = map pa_name l /\ d_contents d = Some body.
Proof.
  intros C n s word gap name l body rest W G Nm Fr Nd Op Good Fb Be Ov. rewrite (define_line C n s word gap name (40 :: params_text l ++ 41 :: body ++ rest) W G Nm eq_refl).
  set (k := key C name) in *. set (d0 := mkdefine k (s_line s) (s_file s) None []).
  assert (E1 : add_define C name true s = Ok (Some (RG k, false)) (set_defines (tset k d0 (s_defines s)) s)).
  { destruct Fr as (L & A & N1 & N2). unfold add_define. destruct name as [|c m]; [destruct Nm as (_ & (c & u & E & _) & _); discriminate E|]. fold k.
    assert (I : key C k = k) by apply key_idem.
    assert (Sl : search_labels C k s = Ok None s) by (unfold search_labels; rewrite bind_get, I; unfold k; rewrite L; reflexivity).
    assert (Sd : search_defines C k true s = Ok None s).
    { unfold search_defines. rewrite bind_get, bind_get, I. unfold k in *. rewrite A, (eqbl_false _ _ N1), (eqbl_false _ _ N2), Nd. reflexivity. }
    rewrite (bind_ok _ _ _ _ _ Sl), (bind_ok _ _ _ _ _ Sd). rewrite bind_get, bind_get, bind_get, bind_upd. reflexivity. }
  rewrite (bind_ok _ _ _ _ _ E1). rewrite bind_upd. cbn [hd0 tl]. change (40 =? 40) with true. cbv iota.
  set (s1 := set_last_define (Some (RG k)) (set_defines (tset k d0 (s_defines s)) s)).
  assert (F1 : tfind k (s_defines s1) = Some d0) by apply tfind_tset_same.
  assert (P : exists t, parse_arg_defs C (params_text l ++ 41 :: body ++ rest) (RG k) s1 = Ok (Some (body ++ rest)) (set_last_define (Some (RG k)) (set_defines t s)) /\
    forall m, tfind m t = if eqbl m k then Some (d_with d0 (map pa_name l)) else tfind m (s_defines s)).
  { unfold parse_arg_defs. unfold bind at 1. rewrite (get_define_ok (RG k) s1 d0 F1). unfold bind at 1, put_define at 1. cbn [lookup_ref]. rewrite F1.
    change (mkdefine (d_name d0) (d_line d0) (d_file d0) (d_contents d0) []) with d0.
    destruct (arg_defs_run C k (body ++ rest) l [] (set_defines (tset k d0 (s_defines s1)) s1) (S (length (params_text l ++ 41 :: body ++ rest))) false d0) as (t & E & Ht); auto.
    - cbn. destruct (Nat.le_gt_cases (length l) 16) as [H|H]; [exact H|]. contradiction Good. right. now rewrite map_length.
    - apply Forall_forall. intros p _ a [].
    - destruct (distinct (key C) (map pa_name l)) eqn:D; [reflexivity|]. contradiction Good. now left.
    - pose proof (params_short l (body ++ rest)). lia.
    - cbn [s_defines set_defines]. apply tfind_tset_same.
    - exists t. split; [exact E|]. intros m. rewrite Ht. cbn [app s_defines set_defines s1 set_last_define]. rewrite !tfind_tset. destruct (eqbl m k); reflexivity. }
  destruct P as (t & E2 & Ht). rewrite (bind_ok _ _ _ _ _ E2).
  assert (Ie : is_eol (body ++ rest) = false) by (destruct body as [|c b]; [discriminate Be|exact Be]). rewrite Ie.
  rewrite (line_end_over body rest Fb Ov), seg_app. cbv zeta. set (s2 := set_last_define (Some (RG k)) (set_defines t s)).
  assert (F2 : tfind k t = Some (d_with d0 (map pa_name l))) by now rewrite Ht, eqbl_refl.
  set (d1 := mkdefine k (s_line s) (s_file s) (Some body) (map pa_name l)).
  assert (E3 : redefine C (knot C n) (RG k) body false s2 = Ok tt (set_last_define (Some (RG k)) (set_defines (tset k d1 t) s))).
  { unfold redefine, set_define. unfold bind at 1. rewrite (get_define_ok (RG k) s2 _ F2). unfold set_contents, bind, get_define, put_define, lookup_ref. cbn [s_defines set_defines set_last_define s2].
    rewrite F2. change (s_defines s2) with t. rewrite F2. reflexivity. }
  rewrite (bind_ok _ _ _ _ _ E3). exists (tset k d1 t), d1. split; [reflexivity|]. split; [|split; reflexivity].
  intros m. rewrite tfind_tset, Ht. destruct (eqbl m k); reflexivity.
Qed.
Example c87_accepted_case : ~ too_much ex_conf [zs "aa"; zs "b"] /\ is_eol (zs " aa+b ") = false /\
  match handle_preop ex_conf (knot ex_conf 20) (zs "define x1(aa, b ) aa+b ; sum") ex_state with
  | Ok (Some r) s' => r = zs "; sum" /\ option_map d_args (tfind (zs "X1") (s_defines s')) = Some [zs "aa"; zs "b"] /\ contents_in (s_defines s') (zs "X1") = Some (Some (zs " aa+b "))
  | _ => False end.
Proof. split; [intros [H|H]; [discriminate H|cbn in H; lia]|]. split; [reflexivity|]. vm_compute. split; [reflexivity|]. split; reflexivity. Qed.
(** In whole programs: nothing after the line is assembled.  An output file is written all the
    same. *)
Theorem c87_file_refuted : Validate.assemble 100 [] (prog [" .db 7"; "#define m(a,b,A) 1"; " .db 1"]%string) = Some (3, Some [7], []) /\
  Validate.assemble 100 [] (prog ["#define m(a,b,c,d,e,f,g,h,i,j,k,l,m,n,o,p,q) 1"; " .db 1"]%string) = Some (3, Some [], []) /\
  Validate.assemble 100 [] (prog ["#macro m(a,b,A)"; "#endmacro"; " .db 1"]%string) = Some (3, Some [], []).
Proof. vm_compute. split; [reflexivity|]. split; reflexivity. Qed.
Print Assumptions c87_define.
Print Assumptions c87_macro.
Print Assumptions c87_accepted.
Print Assumptions c87_ends.
Print Assumptions c87_file_refuted.
