(** Labels and assignments of names that are already in use (pass_one.cpp:192-262,
    storage.cpp:558-609). *)
From Coq Require Import String.
From Verif Require Import Programs.
From Verif Require Import Base BaseProofs State MonadProofs UtilsModel ErrorsModel StorageModel ParserModel PassTwoModel
  PreopModel PassOneModel DirectiveModel Knot MainModel Validate UtilsSpec UtilsProofs UtilsProps StorageProofs PassTwoSpec PassTwoProofs
  ParserSpec ParserProofs ParserProps StringProps InstrSpec MatchSpec MatchProps AsmSpec AsmExpand AsmProofs AsmData AsmLine CondRun DirProps RefuseProps.

(** The name is neither a define nor a macro parameter. *)
Definition not_define (C : cfg) (s : st) (n : text) : Prop :=
  find_arg (key C n) (s_args s) = None /\ tfind (key C n) (s_defines s) = None.
(** What may follow the name of a label: a colon, or something that is no part of the name. *)
Definition ends_label (colon tail : text) : Prop :=
  colon = [58] \/ (colon = [] /\ is_name_char (hd0 tail) = false /\ hd0 tail <> 40 /\ hd0 tail <> 58).

Lemma label_step C R f n colon tail s : ParserSpec.name_ok n -> ends_label colon tail ->
  line_sec C R (S f) (n ++ colon ++ tail) s = (pc <- get s_pc ;; l <- add_label C n (wrap32 pc) ;; upd (set_last_label l) ;;; line_sec C R f tail) s.
Proof.
  intros (Nu & (c & u & En & Ns) & Nc) Hd. rewrite line_sec_S.
  assert (E1 : is_eol (n ++ colon ++ tail) = false). { rewrite En. cbn [app is_eol]. unfold name_start in Ns. lia. }
  assert (E2 : isalpha (hd0 (n ++ colon ++ tail)) || (hd0 (n ++ colon ++ tail) =? 95) = true). { rewrite En. cbn [app hd0]. unfold name_start in Ns. unfold isalpha, isupper, islower. lia. }
  assert (E3 : is_name_char (hd0 (colon ++ tail)) = false /\ hd0 (colon ++ tail) <> 40 /\ skip_char 58 (colon ++ tail) = tail).
  { destruct Hd as [->|(-> & H1 & H2 & H3)]; [split; [reflexivity|split; [cbn; lia|reflexivity]]|].
    cbn [app]. split; [exact H1|]. split; [exact H2|]. unfold skip_char. replace (hd0 tail =? 58) with false by lia. reflexivity. }
  destruct E3 as (E3 & E4 & E5).
  rewrite E1, E2. rewrite (skip_name_app n (colon ++ tail) Nc E3). replace (hd0 (colon ++ tail) =? 40) with false by lia. rewrite seg_app, E5.
  replace (eqbl n (zs "_")) with false by (symmetry; now apply eqbl_neq). now rewrite !bind_assoc, !bind_get, bind_assoc.
Qed.

(** The state after the label: its value is the address, and the status is raised if it had
    another value. *)
Definition relabelled (C : cfg) (n : text) (s : st) : st :=
  let k := key C n in let v := wrap32 (s_pc s) in
  set_last_label (Some k)
    (match tfind k (s_labels s) with
     | None => set_labels (tset k (mklabel k (s_line s) (s_file s) v) (s_labels s)) s
     | Some l => if v =? l_value l then s
                 else set_exitc (if s_exitc s <? 1 then 1 else s_exitc s) (set_labels (tset k (mklabel (l_name l) (l_line l) (l_file l) v) (s_labels s)) s)
     end).
Lemma label_sets C R f n colon tail s : c_counter C = false -> ParserSpec.name_ok n -> ends_label colon tail -> not_define C s n ->
  line_sec C R (S f) (n ++ colon ++ tail) s = line_sec C R f tail (relabelled C n s).
Proof.
  intros Hc Hn He (D1 & D2). rewrite (label_step C R f n colon tail s Hn He). rewrite bind_get. unfold add_label. rewrite Hc. cbv zeta.
  assert (Sd : search_defines C (key C n) true s = Ok None s).
  { unfold search_defines. rewrite bind_get, bind_get, key_idem. rewrite D1, D2. destruct (eqbl _ (zs "__LINE")); [rewrite bind_assoc, bind_get; reflexivity|].
    destruct (eqbl _ (zs "__FILE")); [rewrite bind_assoc, bind_get; reflexivity|reflexivity]. }
  rewrite bind_assoc, (bind_ok _ _ _ _ _ Sd). rewrite bind_assoc, bind_get. unfold relabelled. destruct (tfind (key C n) (s_labels s)) as [l|].
  - destruct (_ =? l_value l); repeat first [rewrite bind_assoc|rewrite bind_get|rewrite bind_upd|rewrite bind_ret]; [reflexivity|].
    unfold show_warning, raise_exit. repeat first [rewrite bind_assoc|rewrite bind_get|rewrite bind_upd|rewrite bind_ret]. reflexivity.
  - repeat first [rewrite bind_assoc|rewrite bind_get|rewrite bind_upd|rewrite bind_ret]. reflexivity.
Qed.

(** A label again: whatever follows on the line runs in a state where the label has the new value,
    every other label its own, and the status is at least 1 exactly if the value is another one. *)
Theorem c84_label : forall C R f n colon tail s, c_counter C = false -> ParserSpec.name_ok n -> ends_label colon tail -> not_define C s n ->
  exists t x, line_sec C R (S f) (n ++ colon ++ tail) s = line_sec C R f tail (set_last_label (Some (key C n)) (set_exitc x (set_labels t s))) /\
    (forall m, value_in t m = if eqbl m (key C n) then Some (wrap32 (s_pc s)) else value_in (s_labels s) m) /\
    x = match value_in (s_labels s) (key C n) with
        | Some old => if old =? wrap32 (s_pc s) then s_exitc s else Z.max 1 (s_exitc s)
        | None => s_exitc s
        end.
Proof.
  intros C R f n colon tail s Hc Hn He Hd. rewrite (label_sets C R f n colon tail s Hc Hn He Hd). unfold relabelled, value_in.
  set (k := key C n). destruct (tfind k (s_labels s)) as [l|] eqn:El; cbn [option_map].
  - rewrite (Z.eqb_sym (l_value l)). destruct (Z.eqb_spec (wrap32 (s_pc s)) (l_value l)) as [E|E].
    + exists (s_labels s), (s_exitc s). split; [destruct s; reflexivity|]. split; [|reflexivity]. intros m. destruct (eqbl m k) eqn:Em; [|reflexivity].
      apply eqbl_eq in Em. subst m. rewrite El. cbn. now rewrite E.
    + eexists _, _. split; [reflexivity|]. split; [|destruct (s_exitc s <? 1) eqn:L; lia]. intros m. rewrite tfind_tset. now destruct (eqbl m k).
  - eexists _, (s_exitc s). split; [|split; [|reflexivity]].
    + instantiate (1 := tset k (mklabel k (s_line s) (s_file s) (wrap32 (s_pc s))) (s_labels s)). destruct s; reflexivity.
    + intros m. rewrite tfind_tset. now destruct (eqbl m k).
Qed.

(** A define cannot become a label: the status is at least 2, the labels stay as they are. *)
Theorem c84_define : forall C R f n colon tail s, c_counter C = false -> ParserSpec.name_ok n -> ends_label colon tail -> ~ not_define C s n ->
  key C n <> zs "__LINE" -> key C n <> zs "__FILE" ->
  line_sec C R (S f) (n ++ colon ++ tail) s = line_sec C R f tail (set_last_label None (set_exitc (Z.max 2 (s_exitc s)) s)).
Proof.
  intros C R f n colon tail s Hc Hn He Hd N1 N2. rewrite (label_step C R f n colon tail s Hn He). rewrite bind_get. unfold add_label. rewrite Hc. cbv zeta.
  assert (Sd : exists r, search_defines C (key C n) true s = Ok (Some r) s).
  { unfold search_defines. rewrite bind_get, bind_get, key_idem. rewrite (eqbl_false _ _ N1), (eqbl_false _ _ N2), bind_ret. unfold not_define in Hd.
    destruct (find_arg (key C n) (s_args s)) as [r|]; [now exists r|]. destruct (tfind (key C n) (s_defines s)); [eexists; reflexivity|]. now contradiction Hd. }
  destruct Sd as (r & Sd). rewrite bind_assoc, (bind_ok _ _ _ _ _ Sd). unfold show_error, raise_exit.
  repeat first [rewrite bind_assoc|rewrite bind_get|rewrite bind_upd|rewrite bind_ret]. unfold EXIT_ERRORS.
  replace (if s_exitc s <? 2 then 2 else s_exitc s) with (Z.max 2 (s_exitc s)) by (destruct (s_exitc s <? 2) eqn:L; lia). reflexivity.
Qed.

(** name = expression: first the label is set to the address, then the expression is evaluated
    and its value assigned. *)
Lemma assign_steps C n0 f n colon b w v rest s : (20 <= n0)%nat -> c_counter C = false -> ParserSpec.name_ok n -> not_define C s n ->
  colon = [58] \/ colon = [] -> Forall UtilsSpec.blank b -> line_over rest -> stands_for C (relabelled C n s) w v ->
  exists t, line_sec C (knot C n0) (S (S (S f))) (n ++ colon ++ b ++ 61 :: wr w ++ rest) s = Ok (Some rest) (set_labels t (evaluated (relabelled C n s))) /\
    forall m, value_in t m = if eqbl m (key C n) then Some v else value_in (s_labels s) m.
Proof.
  intros H20 Hc Hn Hd Hcol Hb Ov S.
  assert (He : ends_label colon (b ++ 61 :: wr w ++ rest)).
  { destruct Hcol as [->| ->]; [now left|right]. split; [reflexivity|]. destruct b as [|c b]; cbn [app hd0]; [split; [reflexivity|lia]|].
    inversion Hb as [|? ? Hx _]; subst. destruct (blank_space c Hx) as (_ & _ & _ & B). split; [exact B|]. unfold UtilsSpec.blank in Hx. lia. }
  rewrite (label_sets C _ _ n colon _ s Hc Hn He Hd). set (s1 := relabelled C n s) in *.
  assert (E : line_sec C (knot C n0) (Datatypes.S (Datatypes.S f)) (b ++ 61 :: wr w ++ rest) s1 = (q <- equate (knot C n0) (wr w ++ rest) ;; ret (Some q)) s1).
  { destruct b as [|c b]; [reflexivity|]. inversion Hb as [|? ? Hx Hb']; subst. destruct (blank_space c Hx) as (B1 & B2 & B3 & _).
    cbn [app]. rewrite line_sec_S. rewrite blank_eol by exact Hx. cbn [hd0]. rewrite B2, B1. replace (c =? 95) with false by lia. cbn [orb].
    change (c :: b ++ 61 :: wr w ++ rest) with ((c :: b) ++ 61 :: wr w ++ rest). rewrite skip_ws_app by exact Hb. rewrite skip_ws_nonblank by (unfold UtilsSpec.blank; lia). reflexivity. }
  rewrite E. unfold equate. rewrite bind_assoc. unfold bind at 1. rewrite (read_written (Pm := no_params) [] w rest s1); [|auto|apply S|auto].
  cbn [rx_word rx_ptr]. rewrite bind_assoc, (bind_ok _ _ _ _ _ (parse_stands C n0 s1 w v H20 S)). fold (evaluated s1).
  rewrite !bind_assoc, bind_get.
  assert (L1 : s_last_label (evaluated s1) = Some (key C n)) by reflexivity. rewrite L1.
  assert (Q : exists l, tfind (key C n) (s_labels s1) = Some l).
  { unfold s1, relabelled. destruct (tfind (key C n) (s_labels s)) as [l|] eqn:El; [destruct (_ =? l_value l)|]; cbn [s_labels set_last_label set_labels set_exitc]; rewrite ?tfind_tset_same, ?El; eexists; reflexivity. }
  destruct Q as (l & El). exists (tset (key C n) (mklabel (l_name l) (l_line l) (l_file l) v) (s_labels s1)). split.
  - unfold set_label_value. rewrite bind_assoc, bind_get. cbn [evaluated s_labels set_depth set_fwd]. rewrite El. reflexivity.
  - intros m. unfold value_in. rewrite tfind_tset. destruct (eqbl m (key C n)) eqn:Em; [reflexivity|].
    unfold s1, relabelled. destruct (tfind (key C n) (s_labels s)) as [l0|]; [destruct (_ =? l_value l0)|]; cbn [s_labels set_last_label set_labels set_exitc]; rewrite ?tfind_tset, ?Em; reflexivity.
Qed.

Lemma relabelled_is C n s : exists t x, relabelled C n s = set_last_label (Some (key C n)) (set_exitc x (set_labels t s)) /\
  (forall m, eqbl m (key C n) = false -> tfind m t = tfind m (s_labels s)) /\
  x = match value_in (s_labels s) (key C n) with
      | Some old => if old =? wrap32 (s_pc s) then s_exitc s else Z.max 1 (s_exitc s)
      | None => s_exitc s
      end.
Proof.
  unfold relabelled, value_in. set (k := key C n). destruct (tfind k (s_labels s)) as [l|]; cbn [option_map].
  - rewrite (Z.eqb_sym (l_value l)). destruct (Z.eqb_spec (wrap32 (s_pc s)) (l_value l)) as [E|E].
    + exists (s_labels s), (s_exitc s). split; [destruct s; reflexivity|]. split; [|reflexivity]. auto.
    + eexists _, _. split; [reflexivity|]. split; [|destruct (s_exitc s <? 1) eqn:L; lia]. intros m Em. rewrite tfind_tset. now rewrite Em.
  - eexists (tset k (mklabel k (s_line s) (s_file s) (wrap32 (s_pc s))) (s_labels s)), (s_exitc s). split; [destruct s; reflexivity|]. split; [|reflexivity].
    intros m Em. rewrite tfind_tset. now rewrite Em.
Qed.

(** name = expression, where the expression does not use the name itself: the name gets the value
    of the expression, whether or not it had one.  The status is raised exactly if the name had a
    value other than the address of the line; the new value does not count.
    Missing: expressions that use the name, which do not get its old value (see below). *)
Theorem c84_assign_partial : forall C n0 f n colon b w v rest s, (20 <= n0)%nat -> c_counter C = false -> ParserSpec.name_ok n -> not_define C s n ->
  colon = [58] \/ colon = [] -> Forall UtilsSpec.blank b -> line_over rest -> stands_for C s w v ->
  (forall m, mentions m (w_expr w) -> key C m <> key C n) ->
  exists t x, line_sec C (knot C n0) (S (S (S f))) (n ++ colon ++ b ++ 61 :: wr w ++ rest) s =
      Ok (Some rest) (set_last_label (Some (key C n)) (set_exitc x (set_labels t (evaluated s)))) /\
    (forall m, value_in t m = if eqbl m (key C n) then Some v else value_in (s_labels s) m) /\
    x = match value_in (s_labels s) (key C n) with
        | Some old => if old =? wrap32 (s_pc s) then s_exitc s else Z.max 1 (s_exitc s)
        | None => s_exitc s
        end.
Proof.
  intros C n0 f n colon b w v rest s H20 Hc Hn Hd Hcol Hb Ov S Hm.
  destruct (relabelled_is C n s) as (t1 & x & E1 & O1 & X).
  assert (S1 : stands_for C (relabelled C n s) w v).
  { destruct S as (W & names & Rs & V). split; [exact W|]. exists names. rewrite E1. split; [|exact V]. intros m M. specialize (Rs m M). specialize (Hm m M).
    unfold resolves in *. cbn [s_args s_labels s_defines set_last_label set_exitc set_labels]. rewrite (O1 (key C m) (eqbl_false _ _ Hm)). exact Rs. }
  destruct (assign_steps C n0 f n colon b w v rest s H20 Hc Hn Hd Hcol Hb Ov S1) as (t & E & Vs).
  exists t, x. split; [|split; [exact Vs|exact X]]. rewrite E, E1. reflexivity.
Qed.

(** ** #define *)
(** The end of the text of a definition: a backslash does not end it. *)
Definition text_over (r : text) : Prop := r = [] \/ exists c t, r = c :: t /\ (c = 10 \/ c = 13 \/ c = 59).
Definition in_text (c : Z) : Prop := c <> 10 /\ c <> 13 /\ c <> 59 /\ c <> 34.
Lemma line_end_over a x : Forall in_text a -> text_over x -> skip_to_line_end (a ++ x) = x.
Proof.
  intros F Ov. unfold skip_to_line_end. generalize false at 1. induction F as [|c a (H1 & H2 & H3 & H4) F IH]; intros e.
  - destruct Ov as [->|(c & t & -> & [->|[->| ->]])]; reflexivity.
  - cbn [app skip_line_end]. replace (c =? 10) with false by lia. replace (c =? 13) with false by lia. replace (c =? 59) with false by lia. replace (c =? 34) with false by lia.
    cbn [orb andb]. destruct (c =? 92); apply IH.
Qed.
Lemma define_named C s m v : m <> [] -> free_name C s m -> exists D b,
  (add_define C m true s = Ok (Some (RG (key C m), b)) (set_defines D s) /\
   exists D', set_contents (RG (key C m)) v (set_last_define (Some (RG (key C m))) (set_defines D s)) = Ok tt (set_last_define (Some (RG (key C m))) (set_defines D' s)) /\
   forall k, contents_in D' k = if eqbl k (key C m) then Some (Some v) else contents_in (s_defines s) k).
Proof.
  intros N (L & A & N1 & N2). unfold add_define. destruct m as [|c m]; [congruence|]. set (k := key C (c :: m)) in *.
  assert (I : key C k = k) by apply key_idem.
  assert (Sl : search_labels C k s = Ok None s) by (unfold search_labels; rewrite bind_get, I, L; reflexivity).
  assert (Sd : search_defines C k true s = Ok (match tfind k (s_defines s) with Some _ => Some (RG k) | None => None end) s).
  { unfold search_defines. rewrite bind_get, bind_get, I. rewrite A, (eqbl_false _ _ N1), (eqbl_false _ _ N2). reflexivity. }
  destruct (tfind k (s_defines s)) as [d|] eqn:E; eexists _, _.
  - split.
    + rewrite (bind_ok _ _ _ _ _ Sl), (bind_ok _ _ _ _ _ Sd). unfold bind at 1. rewrite (get_define_ok (RG k) s d E). unfold bind at 1, put_define at 1. cbn [lookup_ref]. rewrite E. reflexivity.
    + unfold set_contents, bind, get_define, put_define, lookup_ref. cbn [s_defines set_defines set_last_define]. rewrite tfind_tset_same. cbn [s_defines set_defines set_last_define]. rewrite tfind_tset_same.
      eexists. split; [reflexivity|]. intros k2. unfold contents_in. rewrite !tfind_tset. destruct (eqbl k2 k); reflexivity.
  - split.
    + rewrite (bind_ok _ _ _ _ _ Sl), (bind_ok _ _ _ _ _ Sd). rewrite bind_get, bind_get, bind_get, bind_upd. reflexivity.
    + unfold set_contents, bind, get_define, put_define, lookup_ref. cbn [s_defines set_defines set_last_define]. rewrite tfind_tset_same. cbn [s_defines set_defines set_last_define]. rewrite tfind_tset_same.
      eexists. split; [reflexivity|]. intros k2. unfold contents_in. rewrite !tfind_tset. destruct (eqbl k2 k); reflexivity.
Qed.
Lemma define_line C n0 s word gap name rest : eqbl_ci word (zs "define") = true -> gap_ok gap -> ParserSpec.name_ok name -> is_name_char (hd0 rest) = false ->
  handle_preop C (knot C n0) (word ++ gap ++ name ++ rest) s =
  (d <- add_define C name true ;;
   match d with
   | None => ret (Some (skip_to_line_end (name ++ rest)))
   | Some (r, redefined) =>
     upd (set_last_define (Some r)) ;;;
     if hd0 rest =? 40 then
       q <- parse_arg_defs C (tl rest) r ;;
       match q with
       | None => ret None
       | Some q => if is_eol q then show_error ;;; ret (Some q) else let e := skip_to_line_end q in redefine C (knot C n0) r (seg q e) redefined ;;; ret (Some e)
       end
     else if is_eol (skip_ws rest) then set_contents r (zs "1") ;;; ret (Some rest)
     else
       w <- read_expr rest (zs "(") ;;
       if eqbl_ci (rx_word w) (zs "eval") then
         x <- read_expr (skip_char 40 (rx_ptr w)) (zs ")") ;;
         v <- f_eval (knot C n0) (rx_word x) ;;
         redefine C (knot C n0) r v redefined ;;;
         ret (Some (skip_char 41 (rx_ptr x)))
       else if eqbl_ci (rx_word w) (zs "concat") then
         let q := skip_char 40 (rx_ptr w) in
         let* ' (t, q) := concat_loop C (knot C n0) (S (length q)) true q in
         redefine C (knot C n0) r t redefined ;;; ret (Some q)
       else
         let e := skip_to_line_end rest in
         redefine C (knot C n0) r (seg rest e) redefined ;;; ret (Some e)
   end) s.
Proof.
  intros W (Ng & Gb) (_ & (c & u & En & Ns) & Nc) Hr.
  destruct (preop_word word [zs "define"] (gap ++ name ++ rest) P_DEFINE) as (E1 & E2 & E3).
  { unfold word_is. cbn [existsb]. now rewrite W. }
  { repeat (constructor; [now split|]). constructor. }
  { destruct gap as [|g gap]; [congruence|]. inversion Gb; subst. cbn [app hd0]. now apply (blank_space g). }
  unfold handle_preop. rewrite E1, E2, E3. rewrite skip_ws_app by exact Gb.
  assert (Sk : skip_ws (name ++ rest) = name ++ rest). { rewrite En. cbn [app]. apply skip_ws_nonblank. unfold UtilsSpec.blank, name_start in *. lia. }
  rewrite Sk. unfold preop_define.
  assert (Ie : is_eol (name ++ rest) = false). { rewrite En. cbn [app is_eol]. unfold name_start in Ns. lia. }
  rewrite Ie, (skip_name_app name rest Nc Hr), seg_app. reflexivity.
Qed.
(** A label cannot become a define: the status is at least 2, nothing else changes, and the rest
    of the line is not looked at. *)
Theorem c84_no_define : forall C n0 s word gap name body rest, eqbl_ci word (zs "define") = true -> gap_ok gap -> ParserSpec.name_ok name ->
  is_name_char (hd0 (body ++ rest)) = false -> Forall in_text body -> text_over rest ->
  tfind (key C name) (s_labels s) <> None ->
  handle_preop C (knot C n0) (word ++ gap ++ name ++ body ++ rest) s = Ok (Some rest) (set_exitc (Z.max 2 (s_exitc s)) s).
Proof.
  intros C n0 s word gap name body rest W G Nm Hr Fb Ov L. rewrite (define_line C n0 s word gap name (body ++ rest) W G Nm Hr).
  destruct (tfind (key C name) (s_labels s)) as [l|] eqn:El; [|congruence]. clear L.
  assert (E : add_define C name true s = Ok None (set_exitc (Z.max 2 (s_exitc s)) s)).
  { unfold add_define. destruct Nm as (_ & (c & u & -> & _) & _). unfold search_labels. rewrite bind_assoc, bind_get, bind_ret, key_idem, El.
    unfold show_error, raise_exit, EXIT_ERRORS. repeat first [rewrite bind_assoc|rewrite bind_get|rewrite bind_upd|rewrite bind_ret].
    replace (if s_exitc s <? 2 then 2 else s_exitc s) with (Z.max 2 (s_exitc s)) by (destruct (s_exitc s <? 2) eqn:Q; lia). reflexivity. }
  rewrite (bind_ok _ _ _ _ _ E). unfold ret. do 2 f_equal.
  rewrite app_assoc. apply line_end_over; [|exact Ov]. apply Forall_app. split; [|exact Fb]. destruct Nm as (_ & _ & Nc). eapply Forall_impl; [|exact Nc].
  intros c Hc. unfold ParserSpec.name_char in Hc. cbn in Hc. unfold in_text. lia.
Qed.
(** A name alone is defined as 1, silently also if it was a define before. *)
Theorem c84_flag : forall C n0 s word gap name b rest, eqbl_ci word (zs "define") = true -> gap_ok gap -> ParserSpec.name_ok name ->
  Forall UtilsSpec.blank b -> line_over rest -> free_name C s name ->
  exists D, handle_preop C (knot C n0) (word ++ gap ++ name ++ b ++ rest) s = Ok (Some (b ++ rest)) (set_last_define (Some (RG (key C name))) (set_defines D s)) /\
    forall m, contents_in D m = if eqbl m (key C name) then Some (Some (zs "1")) else contents_in (s_defines s) m.
Proof.
  intros C n0 s word gap name b rest W G Nm Hb Ov Fr.
  assert (Hr : is_name_char (hd0 (b ++ rest)) = false /\ hd0 (b ++ rest) <> 40).
  { destruct b as [|c b]; cbn [app hd0].
    - destruct Ov as [->|(c & t & -> & Hc)]; [split; [reflexivity|cbn; lia]|]. cbn [hd0]. unfold line_ender in Hc. split; [|lia]. destruct Hc as [->|[->|[->| ->]]]; reflexivity.
    - inversion Hb as [|? ? Hx _]; subst. destruct (blank_space c Hx) as (_ & _ & _ & B). split; [exact B|]. unfold UtilsSpec.blank in Hx. lia. }
  rewrite (define_line C n0 s word gap name (b ++ rest) W G Nm (proj1 Hr)).
  destruct (define_named C s name (zs "1") ltac:(destruct Nm as (_ & (c & u & -> & _) & _); discriminate) Fr) as (D1 & nw & E1 & D2 & E3 & M).
  rewrite (bind_ok _ _ _ _ _ E1). rewrite bind_upd. replace (hd0 (b ++ rest) =? 40) with false by (destruct Hr; lia).
  assert (Ie : is_eol (skip_ws (b ++ rest)) = true).
  { rewrite skip_ws_app by exact Hb. destruct Ov as [->|(c & t & -> & Hc)]; [reflexivity|]. unfold line_ender in Hc. rewrite skip_ws_nonblank by (unfold UtilsSpec.blank; lia). cbn. lia. }
  rewrite Ie. exists D2. split; [|exact M].
  rewrite (bind_ok _ _ _ _ _ E3). reflexivity.
Qed.

(** The hypotheses are met: lab is 9, the address is 8. *)
Example c84_case :
  (exists t, line_sec ex_conf (knot ex_conf 20) 2 (zs "lab: ; again") ex_state = line_sec ex_conf (knot ex_conf 20) 1 (zs " ; again") (set_last_label (Some (zs "LAB")) (set_exitc 1 (set_labels t ex_state))) /\
     value_in t (zs "LAB") = Some 8) /\
  (exists t, line_sec ex_conf (knot ex_conf 20) 4 (zs "x1 =2+ $03 *- (%100-lab) ; once") ex_state = Ok (Some (zs "; once")) (set_last_label (Some (zs "X1")) (set_exitc 0 (set_labels t (evaluated ex_state)))) /\
     value_in t (zs "X1") = Some 25 /\ value_in t (zs "LAB") = Some 9).
Proof.
  split.
  - destruct (c84_label ex_conf (knot ex_conf 20) 1 (zs "lab") [58] (zs " ; again") ex_state eq_refl) as (t & x & E & V & X).
    + split; [discriminate|]. split; [exists 108; eexists; split; [reflexivity|unfold name_start; lia]|match goal with |- Forall _ ?l => let r := eval vm_compute in l in change l with r end; repeat (apply Forall_cons; [unfold ParserSpec.name_char; lia|]); apply Forall_nil].
    + now left.
    + split; reflexivity.
    + exists t. split; [rewrite X in E; exact E|]. rewrite V. reflexivity.
  - destruct (c84_assign_partial ex_conf 20 1 (zs "x1") [] (zs " ") ex_written 25 (zs "; once") ex_state (le_n 20) eq_refl) as (t & x & E & V & X).
    + split; [discriminate|]. split; [exists 120; eexists; split; [reflexivity|unfold name_start; lia]|match goal with |- Forall _ ?l => let r := eval vm_compute in l in change l with r end; repeat (apply Forall_cons; [unfold ParserSpec.name_char; lia|]); apply Forall_nil].
    + split; reflexivity.
    + now right.
    + repeat constructor; unfold UtilsSpec.blank; lia.
    + right; exists 59; eexists; split; [reflexivity|]; unfold line_ender; lia.
    + exact (ex_stands ex_conf eq_refl).
    + intros m H. assert (Em : zs "lab" = m) by (cbn [ex_written w_expr c01_expr mentions term_mentions] in H; tauto). subst m. discriminate.
    + exists t. split; [rewrite X in E; exact E|]. rewrite !V. split; reflexivity.
Qed.
Example c84_define_case : let s := set_defines (tset (zs "X1") (mkdefine (zs "X1") 1 [] (Some (zs "5")) []) (s_defines ex_state)) ex_state in ~ not_define ex_conf s (zs "x1").
Proof. cbv zeta. intros (_ & H). discriminate H. Qed.

Lemma name_x1 : ParserSpec.name_ok (zs "x1").
Proof.
  split; [discriminate|]. split; [exists 120; eexists; split; [reflexivity|unfold name_start; lia]|].
  match goal with |- Forall _ ?l => let r := eval vm_compute in l in change l with r end; repeat (apply Forall_cons; [unfold ParserSpec.name_char; lia|]); apply Forall_nil.
Qed.
Example c84_flag_case : let s := set_defines (tset (zs "X1") (mkdefine (zs "X1") 1 [] (Some (zs "5")) []) (s_defines ex_state)) ex_state in
  exists D, handle_preop ex_conf (knot ex_conf 20) (zs "Define x1 ; on") s = Ok (Some (zs " ; on")) (set_last_define (Some (RG (zs "X1"))) (set_defines D s)) /\ contents_in D (zs "X1") = Some (Some (zs "1")).
Proof.
  cbv zeta. set (s := set_defines _ _).
  destruct (c84_flag ex_conf 20 s (zs "Define") (zs " ") (zs "x1") (zs " ") (zs "; on") eq_refl) as (D & E & V).
  - split; [discriminate|]. repeat constructor; unfold UtilsSpec.blank; lia.
  - exact name_x1.
  - repeat constructor; unfold UtilsSpec.blank; lia.
  - right; exists 59; eexists; split; [reflexivity|]; unfold line_ender; lia.
  - split; [reflexivity|]. split; [reflexivity|]. split; discriminate.
  - exists D. split; [exact E|]. rewrite V. reflexivity.
Qed.
Example c84_no_define_case : handle_preop ex_conf (knot ex_conf 20) (zs "define lab 5 ; no") ex_state = Ok (Some (zs "; no")) (set_exitc 2 ex_state).
Proof.
  refine (c84_no_define ex_conf 20 ex_state (zs "define") (zs " ") (zs "lab") (zs " 5 ") (zs "; no") eq_refl _ _ eq_refl _ _ _).
  - split; [discriminate|]. repeat constructor; unfold UtilsSpec.blank; lia.
  - split; [discriminate|]. split; [exists 108; eexists; split; [reflexivity|unfold name_start; lia]|].
    match goal with |- Forall _ ?l => let r := eval vm_compute in l in change l with r end; repeat (apply Forall_cons; [unfold ParserSpec.name_char; lia|]); apply Forall_nil.
  - match goal with |- Forall _ ?l => let r := eval vm_compute in l in change l with r end; repeat (apply Forall_cons; [unfold in_text; lia|]); apply Forall_nil.
  - right; exists 59; eexists; split; [reflexivity|]; lia.
  - discriminate.
Qed.

(** What any expression gives, also one that uses the name: there the name stands for the address
    of the line. *)
Theorem c84_assign_any : forall C n0 f n colon b w v rest s names, (20 <= n0)%nat -> c_counter C = false -> ParserSpec.name_ok n -> not_define C s n ->
  colon = [58] \/ colon = [] -> Forall UtilsSpec.blank b -> line_over rest -> written_ok (P := no_params) w ->
  (forall m, mentions m (w_expr w) -> if eqbl (key C m) (key C n) then names m = Some (wrap32 (s_pc s)) else resolves C s names m) ->
  value (c_wrap C) (s_pc s) names (w_expr w) = Val v ->
  exists t x, line_sec C (knot C n0) (S (S (S f))) (n ++ colon ++ b ++ 61 :: wr w ++ rest) s =
      Ok (Some rest) (set_last_label (Some (key C n)) (set_exitc x (set_labels t (evaluated s)))) /\
    (forall m, value_in t m = if eqbl m (key C n) then Some v else value_in (s_labels s) m) /\
    x = match value_in (s_labels s) (key C n) with
        | Some old => if old =? wrap32 (s_pc s) then s_exitc s else Z.max 1 (s_exitc s)
        | None => s_exitc s
        end.
Proof.
  intros C n0 f n colon b w v rest s names H20 Hc Hn Hd Hcol Hb Ov W Rs V.
  destruct (relabelled_is C n s) as (t1 & x & E1 & O1 & X).
  assert (T1 : exists l, tfind (key C n) t1 = Some l /\ l_value l = wrap32 (s_pc s)).
  { assert (Q : exists l, tfind (key C n) (s_labels (relabelled C n s)) = Some l /\ l_value l = wrap32 (s_pc s)).
    { unfold relabelled. destruct (tfind (key C n) (s_labels s)) as [l|] eqn:El; [destruct (Z.eqb_spec (wrap32 (s_pc s)) (l_value l))|];
        cbn [s_labels set_last_label set_labels set_exitc]; rewrite ?tfind_tset_same, ?El; eexists; (split; [reflexivity|]); [now symmetry|reflexivity|reflexivity]. }
    rewrite E1 in Q. exact Q. }
  assert (S1 : stands_for C (relabelled C n s) w v).
  { split; [exact W|]. exists names. rewrite E1. split; [|exact V]. intros m M. specialize (Rs m M).
    destruct (eqbl (key C m) (key C n)) eqn:Em.
    - apply eqbl_eq in Em. unfold resolves. rewrite Rs, Em. split; [apply Hd|exact T1].
    - unfold resolves in *. cbn [s_args s_labels s_defines set_last_label set_exitc set_labels]. rewrite (O1 (key C m) Em). exact Rs. }
  destruct (assign_steps C n0 f n colon b w v rest s H20 Hc Hn Hd Hcol Hb Ov S1) as (t & E & Vs).
  exists t, x. split; [|split; [exact Vs|exact X]]. rewrite E, E1. reflexivity.
Qed.
(** lab = 2+3*-(4-lab) at address 8, whatever lab was: the address takes its place. *)
Example c84_any_case : exists t, line_sec ex_conf (knot ex_conf 20) 3 (zs "lab =2+ $03 *- (%100-lab) ; more") ex_state = Ok (Some (zs "; more")) (set_last_label (Some (zs "LAB")) (set_exitc 1 (set_labels t (evaluated ex_state)))) /\
  value_in t (zs "LAB") = Some 20 /\ value_in (s_labels ex_state) (zs "LAB") = Some 9 /\ s_pc ex_state = 8.
Proof.
  destruct (c84_assign_any ex_conf 20 0 (zs "lab") [] (zs " ") ex_written 20 (zs "; more") ex_state (fun _ => Some 8) (le_n 20) eq_refl) as (t & x & E & V & X).
  - split; [discriminate|]. split; [exists 108; eexists; split; [reflexivity|unfold name_start; lia]|].
    match goal with |- Forall _ ?l => let r := eval vm_compute in l in change l with r end; repeat (apply Forall_cons; [unfold ParserSpec.name_char; lia|]); apply Forall_nil.
  - split; reflexivity.
  - now right.
  - repeat constructor; unfold UtilsSpec.blank; lia.
  - right; exists 59; eexists; split; [reflexivity|]; unfold line_ender; lia.
  - apply (ex_stands ex_conf eq_refl).
  - intros m H. assert (Em : zs "lab" = m) by (cbn [ex_written w_expr c01_expr mentions term_mentions] in H; tauto). subst m. reflexivity.
  - reflexivity.
  - exists t. split; [rewrite X in E; exact E|]. rewrite V. split; [reflexivity|]. split; reflexivity.
Qed.

(** In whole programs. *)
Example c84_runs : Validate.assemble 100 [] (prog ["x: .db 1"; "x: .db x"]%string) = Some (1, Some [1; 1], []) /\
  Validate.assemble 100 [] (prog ["x:"; "x: .db x"]%string) = Some (0, Some [0], []) /\
  Validate.assemble 100 [] (prog ["#define x 5"; "x: .db 1"]%string) = Some (2, Some [1], []) /\
  Validate.assemble 100 [] (prog ["x: .db 7"; "#define x 5"; " .db 1"]%string) = Some (2, Some [7; 1], []) /\
  Validate.assemble 100 [] (prog ["#define x 5"; "#define x"; " .db x"]%string) = Some (0, Some [1], []).
Proof. vm_compute. split; [reflexivity|]. split; [reflexivity|]. split; [reflexivity|]. split; reflexivity. Qed.
(** A warning exactly if the value changes, and a right-hand side that sees the old value: neither
    holds.  x = 0 then x = 5 is not warned about, x = 1 twice is, and x = x + 1 gives one more than
    the address. *)
Theorem c84_assign_refuted : Validate.assemble 100 [] (prog ["x = 0"; "x = 5"; " .db x"]%string) = Some (0, Some [5], []) /\
  Validate.assemble 100 [] (prog ["x = 1"; "x = 1"; " .db x"]%string) = Some (1, Some [1], []) /\
  Validate.assemble 100 [] (prog ["x = 5"; "x = x+1"; " .db x"]%string) = Some (1, Some [1], []).
Proof. vm_compute. split; [reflexivity|]. split; reflexivity. Qed.
Print Assumptions c84_label.
Print Assumptions c84_define.
Print Assumptions c84_assign_partial.
Print Assumptions c84_assign_any.
Print Assumptions c84_no_define.
Print Assumptions c84_flag.
Print Assumptions c84_assign_refuted.
