(** C41: a symbol replaced by its value keeps the value. *)
From Verif Require Import Base BaseProofs State MonadProofs UtilsModel ErrorsModel StorageModel ParserModel PreopModel Knot MainModel
  UtilsSpec UtilsProofs PassTwoSpec StorageProofs ParserSpec ParserProofs DivProofs DefineProofs Validate Programs ParserProps AsmExpand AsmProps.

(** A text stands for a value: alone on an operand, with blanks around it, it evaluates to that
    value in every state, whatever is defined, and without an error. *)
Definition stands_for (C : cfg) (t : list Z) (v : Z) : Prop :=
  forall n s w1 w2 rest, (0 < n)%nat -> Forall UtilsSpec.blank w1 -> Forall UtilsSpec.blank w2 -> line_end rest ->
  parse_num (knot C n) (w1 ++ t ++ w2 ++ rest) s = Ok (Some v) (set_depth 0 (set_fwd false s)).
Definition is_int (v : Z) : Prop := -2147483648 <= v <= 2147483647.
(** The compiled program can negate the value: all but the least one, unless it wraps. *)
Definition negatable (C : cfg) (v : Z) : Prop := v = -2147483648 -> c_wrap C = true.

(** ** The printed numbers *)
Lemma dec_digits v : 0 <= v -> dec v <> [] /\ Forall (digit_of 10) (dec v) /\ numeral 10 (dec v) = v.
Proof.
  intros B. unfold dec. replace (v <? 0) with false by lia. unfold decmin.
  destruct (dec_fuel_ok (S (Z.to_nat (Z.log2 v))) v []) as (ds & E & N & F & V & L); [lia| |].
  { split; [lia|]. eapply Z.lt_le_trans; [apply log2_fuel; lia|]. apply Z.pow_le_mono_l. lia. }
  rewrite app_nil_r in E. rewrite E. auto.
Qed.

(** A literal, or a literal with a minus sign. *)
Lemma literal_stands C l v : literal_ok l -> literal_number l <= 4294967295 -> v = signed32 (literal_number l) ->
  stands_for C (literal_text l) v.
Proof. intros Hl Hn -> n s w1 w2 rest N H1 H2 Hr. now apply c03_literal_value. Qed.
Lemma negative_stands C l v : literal_ok l -> literal_number l <= 4294967295 ->
  fit (c_wrap C) (- signed32 (literal_number l)) = Val v -> stands_for C (45 :: literal_text l) v.
Proof.
  intros Hl Hn E n s w1 w2 rest N H1 H2 Hr.
  assert (Hw : writes (Single (Leaf Neg (Num l))) (45 :: literal_text l)).
  { constructor. apply (W_leaf Neg [] (Num l)); [assumption|constructor|discriminate]. }
  pose proof (c01_left_to_right C n s (fun _ => None) _ _ w1 w2 rest Hw H1 H2 Hr ltac:(simpl; lia) ltac:(simpl; lia)
      ltac:(intros m K; destruct K)) as H.
  cbn [value term_value atom_value] in H. replace (literal_number l <=? 4294967295) with true in H by lia.
  cbn [andthen apply_sign] in H. rewrite E in H. exact H.
Qed.

Lemma hex_stands C v : is_int v -> negatable C v -> stands_for C (hex_text v) v.
Proof.
  intros B W. unfold is_int in B. unfold hex_text. destruct (v <? 0) eqn:E.
  - destruct (hexmin_digits (- v) ltac:(lia)) as (N & F & V).
    apply (negative_stands C (HexDollar (hexmin (- v)))); [|unfold literal_number; cbn [literal_base literal_digits]; lia|].
    + split; [exact N|]. repeat split; auto.
    + unfold literal_number. cbn [literal_base literal_digits]. rewrite V. destruct (Z.eq_dec v (-2147483648)) as [->|K].
      * rewrite (W eq_refl). reflexivity.
      * rewrite signed32_small by lia. unfold fit. replace ((-2147483648 <=? - - v) && (- - v <? 2147483648)) with true by lia.
        f_equal. lia.
  - destruct (hexmin_digits v ltac:(lia)) as (N & F & V).
    apply (literal_stands C (HexDollar (hexmin v))); [|unfold literal_number; cbn [literal_base literal_digits]; lia|].
    + split; [exact N|]. repeat split; auto.
    + unfold literal_number. cbn [literal_base literal_digits]. rewrite V. now rewrite signed32_small by lia.
Qed.
Lemma dec_stands C v : is_int v -> negatable C v -> stands_for C (dec v) v.
Proof.
  intros B W. unfold is_int in B. destruct (v <? 0) eqn:E.
  - destruct (dec_digits (- v) ltac:(lia)) as (N & F & V).
    replace (dec v) with (45 :: dec (- v)) by (unfold dec; rewrite E; replace (- v <? 0) with false by lia; reflexivity).
    apply (negative_stands C (Decimal (dec (- v)))); [|unfold literal_number; cbn [literal_base literal_digits]; lia|].
    + split; [exact N|]. repeat split; auto.
    + unfold literal_number. cbn [literal_base literal_digits]. rewrite V. destruct (Z.eq_dec v (-2147483648)) as [->|K].
      * rewrite (W eq_refl). reflexivity.
      * rewrite signed32_small by lia. unfold fit. replace ((-2147483648 <=? - - v) && (- - v <? 2147483648)) with true by lia.
        f_equal. lia.
  - destruct (dec_digits v ltac:(lia)) as (N & F & V).
    apply (literal_stands C (Decimal (dec v))); [|unfold literal_number; cbn [literal_base literal_digits]; lia|].
    + split; [exact N|]. repeat split; auto.
    + unfold literal_number. cbn [literal_base literal_digits]. rewrite V. now rewrite signed32_small by lia.
Qed.

(** ** eval *)
(** Whatever an expression evaluates to, the text eval gives for it stands for that value. *)
Theorem c41_eval : forall C n expr s v s1,
  parse_num (knot C n) expr (set_sess (s_sess s + 1) s) = Ok (Some v) s1 -> is_int v -> negatable C v ->
  match f_eval (knot C (S n)) expr s with
  | Ok t _ => stands_for C t v
  | Exit _ _ => existsb (fun e => is_fatal (e_code e)) (s_errs s1) = true
  | Undef _ | NoFuel => False
  end.
Proof.
  intros C n expr s v s1 H B W. cbn [knot f_eval]. unfold eval, start_session.
  rewrite !bind_assoc, bind_get, !bind_assoc, bind_upd, bind_ret. rewrite (bind_ok _ _ _ _ _ H).
  unfold end_session. rewrite !bind_assoc, bind_get, !bind_assoc, bind_get, !bind_assoc, bind_upd, !bind_assoc, bind_upd.
  destruct ((s_sess s + 1 =? 1) && existsb (fun e => is_fatal (e_code e)) (lead (s_sess s + 1) (s_errs s1))) eqn:E.
  - cbv beta iota delta [bind]. apply andb_true_iff in E as (_ & E). apply existsb_exists in E as (e & I & F).
    apply existsb_exists. exists e. split; [|exact F]. clear - I. unfold lead in I.
    revert I. generalize (s_errs s1). intros l. induction l as [|x l IH]; [easy|]. cbn.
    repeat match goal with |- context [if ?b then _ else _] => destruct b end; cbn; tauto.
  - rewrite bind_ret. pose proof (hex_stands C v B W) as K. unfold hex_text in K. unfold is_int in B. destruct (v <? 0) eqn:N.
    + unfold int_res. destruct (Z.eq_dec v (-2147483648)) as [->|V].
      * rewrite (W eq_refl). exact K.
      * replace (in_int (- v)) with true by (unfold in_int, INT_MIN, INT_MAX; lia).
        unfold bind, ret. replace (u32 (- v)) with (- v); [exact K|]. unfold u32. now rewrite Z.mod_small by lia.
    + exact K.
Qed.

Lemma eval_is C n expr s v s1 : parse_num (knot C n) expr (set_sess (s_sess s + 1) s) = Ok (Some v) s1 -> is_int v -> negatable C v ->
  s_sess s <> 0 ->
  f_eval (knot C (S n)) expr s = Ok (hex_text v) (set_sess (s_sess s1 - 1) (set_errs (unlead (s_sess s + 1) (s_errs s1)) s1)).
Proof.
  intros H B W S. cbn [knot f_eval]. unfold eval, start_session.
  rewrite !bind_assoc, bind_get, !bind_assoc, bind_upd, bind_ret. rewrite (bind_ok _ _ _ _ _ H).
  unfold end_session. rewrite !bind_assoc, bind_get, !bind_assoc, bind_get, !bind_assoc, bind_upd, !bind_assoc, bind_upd.
  replace (s_sess s + 1 =? 1) with false by lia. cbn [andb]. rewrite bind_ret. unfold hex_text. unfold is_int in B. destruct (v <? 0) eqn:N.
  - unfold int_res. destruct (Z.eq_dec v (-2147483648)) as [->|V].
    + rewrite (W eq_refl). reflexivity.
    + replace (in_int (- v)) with true by (unfold in_int, INT_MIN, INT_MAX; lia).
      unfold bind, ret. replace (u32 (- v)) with (- v); [reflexivity|]. unfold u32. now rewrite Z.mod_small by lia.
  - reflexivity.
Qed.

(** ** #define with eval *)
Lemma read_eval b more : Forall UtilsSpec.blank b ->
  read_expr_gen true (b ++ zs "eval(" ++ more) [40] = mkrx true (40 :: more) (zs "eval") false.
Proof.
  intros B. unfold read_expr_gen. rewrite skip_ws_app by exact B.
  change (zs "eval(" ++ more) with (101 :: 118 :: 97 :: 108 :: 40 :: more).
  rewrite skip_ws_nonblank by (unfold UtilsSpec.blank; lia).
  set (t := 101 :: _). replace (is_eol t || (hd0 t =? 41)) with false by reflexivity.
  replace (3 * length t + 5)%nat with (S (S (S (S (S (3 * length more + 15)))))) by (unfold t; cbn [length]; lia).
  reflexivity.
Qed.
Definition new_name (C : cfg) (s : st) (name : list Z) : Prop :=
  name_ok name /\ tfind (key C name) (s_labels s) = None /\ tfind (key C name) (s_defines s) = None /\
  find_arg (key C name) (s_args s) = None.
(** What the define holds after the line. *)
Definition holds (C : cfg) (s : st) (name t : list Z) : Prop :=
  exists d, tfind (key C name) (s_defines s) = Some d /\ d_contents d = Some t /\ d_args d = [].

Theorem c41_define_eval : forall C n s name b o e v names rest,
  new_name C s name -> b <> [] -> Forall UtilsSpec.blank b -> operand_okd [41] o -> writes e (operand_text o) ->
  (forall m, mentions m e -> resolves C s names m /\ names m <> None) ->
  nest e <= 19 -> nest e < Z.of_nat n -> value (c_wrap C) (s_pc s) names e = Val v -> is_int v -> negatable C v ->
  s_sess s <> 0 ->
  exists s' t, preop_define C (knot C (S n)) (name ++ b ++ zs "eval(" ++ o_before o ++ operand_text o ++ o_after o ++ 41 :: rest) s
    = Ok (Some rest) s' /\ holds C s' name t /\ stands_for C t v /\
    (forall k, k <> key C name -> tfind k (s_defines s') = tfind k (s_defines s)) /\
    s_labels s' = s_labels s /\ s_pc s' = s_pc s /\ s_mem s' = s_mem s.
Proof.
  intros C n s name b o e v names rest (N1 & N2 & N3 & N4) Hb Bb Ho He Hm Hn Hf Hv Bv W Hs.
  set (k := key C name) in *.
  set (tail := o_before o ++ operand_text o ++ o_after o ++ 41 :: rest).
  assert (Hne : exists c t, b = c :: t /\ UtilsSpec.blank c) by (destruct b as [|c t]; [easy|]; inversion Bb; subst; eauto).
  destruct Hne as (c0 & b0 & E0 & Bc0).
  assert (Hnm : exists x y, name = x :: y) by (destruct N1 as (_ & (x & y & -> & _) & _); eauto).
  assert (Hsk : skip_to_name_end (name ++ b ++ zs "eval(" ++ tail) = b ++ zs "eval(" ++ tail).
  { apply skip_name_app; [exact (proj2 (proj2 N1))|]. rewrite E0. cbn [app hd0]. destruct Bc0 as [->|[->|[->| ->]]]; reflexivity. }
  set (s1 := set_last_define (Some (RG k)) (set_defines (tset k (mkdefine k (s_line s) (s_file s) None []) (s_defines s)) s)).
  unfold preop_define.
  assert (Heol : is_eol (name ++ b ++ zs "eval(" ++ tail) = false).
  { destruct N1 as (_ & (x & y & -> & X) & _). cbn [app]. apply is_eol_not. unfold name_start, line_ender in *. lia. }
  rewrite Heol, Hsk. rewrite seg_app.
  assert (Hadd : add_define C name true s = Ok (Some (RG k, false)) (set_defines (tset k (mkdefine k (s_line s) (s_file s) None []) (s_defines s)) s)).
  { unfold add_define. destruct Hnm as (x & y & Exy). rewrite Exy. rewrite <- Exy. unfold search_labels. rewrite !bind_assoc, bind_get, bind_ret.
    fold k. replace (key C k) with k by (unfold k; now rewrite key_idem). rewrite N2.
    rewrite (bind_ok _ _ _ _ _ (search_none C k s ltac:(unfold k; rewrite key_idem; exact N4) ltac:(unfold k; rewrite key_idem; exact N3))).
    reflexivity. }
  rewrite (bind_ok _ _ _ _ _ Hadd). rewrite bind_upd. fold s1.
  replace (hd0 (b ++ zs "eval(" ++ tail) =? 40) with false by (rewrite E0; cbn [app hd0]; unfold UtilsSpec.blank in Bc0; lia).
  replace (is_eol (skip_ws (b ++ zs "eval(" ++ tail))) with false
    by (rewrite skip_ws_app by exact Bb; reflexivity).
  assert (Hr1 : read_expr (b ++ zs "eval(" ++ tail) (zs "(") s1 = Ok (mkrx true (40 :: tail) (zs "eval") false) s1).
  { unfold read_expr, read_expr'. change (zs "(") with [40]. rewrite read_eval by exact Bb. reflexivity. }
  rewrite (bind_ok _ _ _ _ _ Hr1). cbn [rx_word rx_ptr]. replace (eqbl_ci (zs "eval") (zs "eval")) with true by reflexivity.
  replace (skip_char 40 (40 :: tail)) with tail by reflexivity.
  assert (Hr2 : read_expr tail (zs ")") s1 = Ok (mkrx true (41 :: rest) (operand_text o) false) s1).
  { unfold read_expr, read_expr'. change (zs ")") with [41]. unfold tail.
    rewrite read_operand_gen; [reflexivity|simpl; lia| |exact Ho|].
    - right. simpl. intros x [<-|[]]. unfold UtilsSpec.blank. lia.
    - right. right. exists 41, rest. split; [reflexivity|now right]. }
  rewrite (bind_ok _ _ _ _ _ Hr2). cbn [rx_word rx_ptr]. replace (skip_char 41 (41 :: rest)) with rest by reflexivity.
  pose proof (c01_left_to_right C n (set_sess (s_sess s1 + 1) s1) names e (operand_text o) [] [] [] He (Forall_nil _) (Forall_nil _) (or_introl eq_refl) Hn Hf) as H.
  rewrite !app_nil_r in H. cbn [app] in H.
  assert (Hres : forall m, mentions m e -> resolves C (set_sess (s_sess s1 + 1) s1) names m).
  { intros m M. destruct (Hm m M) as ((A & L) & K). split; [exact A|]. destruct (names m); [exact L|easy]. }
  specialize (H Hres). cbv zeta in H. change (s_pc (set_sess (s_sess s1 + 1) s1)) with (s_pc s) in H. rewrite Hv in H.
  rewrite (bind_ok _ _ _ _ _ (eval_is C n (operand_text o) s1 v _ H Bv W Hs)).
  set (s2 := set_sess _ _).
  assert (Hg : lookup_ref s2 (RG k) = Some (mkdefine k (s_line s) (s_file s) None [])).
  { change (tfind k (tset k (mkdefine k (s_line s) (s_file s) None []) (s_defines s)) = Some (mkdefine k (s_line s) (s_file s) None [])).
    apply tfind_tset_same. }
  assert (Hset : redefine C (knot C (S n)) (RG k) (hex_text v) false s2 =
    Ok tt (set_defines (tset k (mkdefine k (s_line s) (s_file s) (Some (hex_text v)) []) (s_defines s2)) s2)).
  { unfold redefine, set_define, set_contents, get_define, put_define, bind. rewrite Hg. cbn iota. rewrite Hg, Hg. reflexivity. }
  rewrite (bind_ok _ _ _ _ _ Hset).
  exists (set_defines (tset k (mkdefine k (s_line s) (s_file s) (Some (hex_text v)) []) (s_defines s2)) s2), (hex_text v).
  split; [reflexivity|]. split.
  { eexists. split; [apply tfind_tset_same|]. split; reflexivity. }
  split; [now apply hex_stands|]. split; [|now split; [|split]].
  intros k' K. cbn [s_defines set_defines]. rewrite tfind_tset_other by exact K.
  change (s_defines s2) with (tset k (mkdefine k (s_line s) (s_file s) None []) (s_defines s)). now apply tfind_tset_other.
Qed.

(** ** Labels in expanded text *)
(** A label alone in an expanded text is replaced by text that stands for its value, when the value
    has at most nine characters.  Missing: the other values, see the refutation. *)
Theorem c41_label_partial : forall C n s name l,
  name_ok name -> tfind (key C name) (s_labels s) = Some l -> tfind (key C name) (s_defines s) = None ->
  find_arg (key C name) (s_args s) = None -> -99999999 <= l_value l <= 999999999 ->
  exists t, f_expand (knot C (S n)) 0 name true s = Ok t s /\ stands_for C t (l_value l).
Proof.
  intros C n s name l (N0 & (x & y & E & X) & N) L D A B.
  assert (F : Forall (fun c => is_name_char c = true) name).
  { eapply Forall_impl; [|exact N]. intros c. apply name_char_iff. }
  assert (T : toks [] name = [name]) by (apply toks_run; [rewrite E; discriminate|exact F]).
  exists (firstn 9 (dec (l_value l))). split.
  - cbn [knot f_expand]. unfold expand_expr_full. change (RECURSION_LIMIT <? 0) with false. cbn iota.
    rewrite (expand_is C (knot C n) 0 s (by_label C s)); [|reflexivity|lia| |].
    + f_equal. unfold xp. rewrite T. cbn [flat_map]. rewrite app_nil_r.
      replace (isrun name) with true; [|unfold isrun; rewrite E in F |- *; inversion F; subst; now symmetry].
      unfold by_label. now rewrite L.
    + intros I. rewrite Forall_forall in F. specialize (F _ I). discriminate.
    + rewrite T. constructor; [|constructor]. intros _. now split.
  - replace (firstn 9 (dec (l_value l))) with (dec (l_value l)).
    + apply dec_stands; [unfold is_int; lia|intros K; lia].
    + symmetry. destruct (l_value l <? 0) eqn:Ng.
      * destruct (dec_small (- l_value l) ltac:(lia)) as (_ & _ & _ & K).
        unfold dec in *. rewrite Ng. replace (- l_value l <? 0) with false in K by lia. rewrite firstn_cons. f_equal.
        apply firstn_all2. unfold decmin.
        destruct (dec_fuel_ok (S (Z.to_nat (Z.log2 (- l_value l)))) (- l_value l) []) as (ds & E1 & _ & _ & _ & Q); [lia| |].
        { split; [lia|]. eapply Z.lt_le_trans; [apply log2_fuel; lia|]. apply Z.pow_le_mono_l. lia. }
        rewrite app_nil_r in E1. rewrite E1. apply Q; [lia|]. cbn. lia.
      * destruct (dec_small (l_value l) ltac:(lia)) as (_ & _ & _ & K). exact K.
Qed.

(** ** concat *)
(** An expression among the arguments of concat is replaced by its value in decimal. *)
Theorem c41_concat : forall C n s o e v names rest,
  operand_ok o -> writes e (operand_text o) -> hd0 (operand_text o) <> 34 ->
  tfind (key C (operand_text o)) (s_defines s) = None -> find_arg (key C (operand_text o)) (s_args s) = None ->
  (forall m, mentions m e -> resolves C s names m) ->
  nest e <= 19 -> nest e < Z.of_nat n -> value (c_wrap C) (s_pc s) names e = Val v -> is_int v -> negatable C v ->
  exists t s', concat_loop C (knot C n) 2 true (o_before o ++ operand_text o ++ o_after o ++ 41 :: rest) s = Ok (t, 41 :: rest) s' /\
    stands_for C t v.
Proof.
  intros C n s o e v names rest Ho He Hq D A Hm Hn Hf Hv Bv W.
  exists (dec v), (set_depth 0 (set_fwd false s)). split; [|now apply dec_stands].
  cbn [concat_loop].
  rewrite (bind_ok _ _ _ _ _ (extract_operand o (41 :: rest) true s Ho (or_intror (or_intror (ex_intro _ 41 (ex_intro _ rest (conj eq_refl (or_intror eq_refl)))))))).
  change (hd0 (41 :: rest) =? 44) with false. cbn iota.
  replace (hd0 (operand_text o) =? 34) with false by lia.
  rewrite bind_assoc. rewrite (bind_ok _ _ _ _ _ (search_none C (operand_text o) s A D)). cbn iota.
  pose proof (c01_left_to_right C n s names e (operand_text o) [] [] [] He (Forall_nil _) (Forall_nil _) (or_introl eq_refl) Hn Hf Hm) as H.
  rewrite !app_nil_r in H. cbn [app] in H. cbv zeta in H. rewrite Hv in H.
  rewrite bind_assoc. rewrite (bind_ok _ _ _ _ _ H), bind_ret. cbn iota.
  unfold bind, extract_arg. cbn. rewrite app_nil_r. reflexivity.
Qed.

(** ** Cases and refutations *)
Definition eval_operand : UtilsSpec.operand := UtilsSpec.mkoperand [32] (map UtilsSpec.PChar (zs "~4095")) [].
Lemma eval_writes : writes (Single (Leaf Inv (Num (Decimal (zs "4095"))))) (operand_text eval_operand).
Proof.
  change (operand_text eval_operand) with (sign_text Inv ++ [] ++ atom_text (Num (Decimal (zs "4095")))).
  constructor. apply (W_leaf Inv [] (Num (Decimal (zs "4095")))); [|constructor|discriminate].
  split; [discriminate|]. split; [digits|exact I].
Qed.
Lemma eval_operand_ok d : ~ In 126 d -> Forall (fun c => ~ 48 <= c <= 57) d -> operand_okd d eval_operand.
Proof.
  intros D1 D2. rewrite Forall_forall in D2. split; [repeat constructor; unfold UtilsSpec.blank; lia|]. split; [constructor|]. split.
  { change (o_body eval_operand) with (map UtilsSpec.PChar [126; 52; 48; 57; 53]). cbn [map].
    repeat (apply Forall_cons; [constructor; [unfold bracket; lia|intros _; split; [|unfold line_ender; lia]; auto; intros I; specialize (D2 _ I); lia]|]).
    apply Forall_nil. }
  split; [exists 126, (zs "4095"); split; [reflexivity|unfold UtilsSpec.blank; lia]|].
  split; [exists 53, (zs "~409"); split; [reflexivity|unfold UtilsSpec.blank; lia]|].
  vm_compute. discriminate.
Qed.
(** #define X eval( ~4095) defines X as -$1000, which stands for -4096. *)
Example c41_define_example : let C := mkcfg true false false false false false (fun _ => None) (fun _ => 0) [] (fun x => x) false in
  let s := set_sess 1 Programs.blank in
  hex_text (-4096) = zs "-$1000" /\
  exists s' t, preop_define C (knot C 5) (zs "X eval( ~4095)" ++ [10]) s = Ok (Some [10]) s' /\ holds C s' (zs "X") t /\ stands_for C t (-4096).
Proof.
  intros C s. split; [reflexivity|].
  destruct (c41_define_eval C 4 s (zs "X") [32] eval_operand (Single (Leaf Inv (Num (Decimal (zs "4095"))))) (-4096) (fun _ => None) [10]) as (s' & t & E & H & S & _).
  - split; [apply AsmProps.name_okb_ok; reflexivity|]. split; [reflexivity|]. split; vm_compute; reflexivity.
  - discriminate.
  - repeat constructor; unfold UtilsSpec.blank; lia.
  - apply eval_operand_ok; [simpl; lia|repeat constructor; lia].
  - exact eval_writes.
  - intros m K. destruct K.
  - cbn. lia.
  - cbn. lia.
  - reflexivity.
  - unfold is_int; lia.
  - intros K. discriminate.
  - discriminate.
  - exists s', t. auto.
Qed.
Example c41_eval_example : let C := mkcfg true false false false false false (fun _ => None) (fun _ => 0) [] (fun x => x) false in
  exists s, f_eval (knot C 6) (zs "5*-9") Programs.blank = Ok (zs "-$2D") s /\ stands_for C (zs "-$2D") (-45).
Proof.
  intros C. eexists. split; [vm_compute; reflexivity|].
  change (stands_for C (hex_text (-45)) (-45)). apply hex_stands; [unfold is_int; lia|intros K; discriminate].
Qed.
Example c41_label_example : let C := mkcfg true false false false false false (fun _ => None) (fun _ => 0) [] (fun x => x) false in
  let s := set_labels [(zs "LAB", mklabel (zs "LAB") 1 [] (-99999999))] Programs.blank in
  f_expand (knot C 6) 0 (zs "lab") true s = Ok (zs "-99999999") s /\ stands_for C (zs "-99999999") (-99999999).
Proof.
  intros C s. split; [vm_compute; reflexivity|].
  destruct (c41_label_partial C 5 s (zs "lab") (mklabel (zs "LAB") 1 [] (-99999999))) as (t & E & S).
  - apply AsmProps.name_okb_ok. reflexivity.
  - reflexivity.
  - vm_compute; reflexivity.
  - reflexivity.
  - cbn. lia.
  - assert (E2 : f_expand (knot C 6) 0 (zs "lab") true s = Ok (zs "-99999999") s) by (vm_compute; reflexivity).
    rewrite E in E2. injection E2 as ->. exact S.
Qed.
Example c41_concat_example : let C := mkcfg true false false false false false (fun _ => None) (fun _ => 0) [] (fun x => x) false in
  exists t s', concat_loop C (knot C 4) 2 true (zs " ~4095)") Programs.blank = Ok (t, zs ")") s' /\ t = zs "-4096" /\ stands_for C t (-4096).
Proof.
  intros C. destruct (c41_concat C 4 Programs.blank eval_operand (Single (Leaf Inv (Num (Decimal (zs "4095"))))) (-4096) (fun _ => None) []) as (t & s' & E & S).
  - apply eval_operand_ok; [simpl; lia|repeat constructor; lia].
  - exact eval_writes.
  - discriminate.
  - vm_compute; reflexivity.
  - reflexivity.
  - intros m K. destruct K.
  - cbn. lia.
  - cbn. lia.
  - reflexivity.
  - unfold is_int; lia.
  - intros K. discriminate.
  - exists t, s'. split; [exact E|]. split; [|exact S].
    assert (E2 : match concat_loop C (knot C 4) 2 true (zs " ~4095)") Programs.blank with Ok (t, _) _ => t | _ => [] end = zs "-4096")
      by (vm_compute; reflexivity).
    change (zs " ~4095)") with (o_before eval_operand ++ operand_text eval_operand ++ o_after eval_operand ++ 41 :: []) in E2.
    rewrite E in E2. exact E2.
Qed.

(** Of a label with a value of ten digits or more, redefinition keeps nine digits. *)
Theorem c41_label_refuted :
  assemble 60 [] (prog ["lab = 1000000000"; "#define X lab"; " .dw X >> 16"]%string) = Some (0, Some [154; 59], []) /\
  assemble 60 [] (prog ["lab = 1000000000"; "#define X 1"; "#define X lab"; " .dw X >> 16"]%string) = Some (0, Some [245; 5], []).
Proof. split; vm_compute; reflexivity. Qed.
(** The digits of the number eval wrote are themselves replaced when the define had a value before and
    they spell a label: 160 is written $A0. *)
Theorem c41_redefined_eval_refuted :
  assemble 60 [] (prog ["A0 = 7"; "#define X eval(160)"; " .db X"]%string) = Some (0, Some [160], []) /\
  assemble 60 [] (prog ["A0 = 7"; "#define X 1"; "#define X eval(160)"; " .db X"]%string) = Some (0, Some [7], []).
Proof. split; vm_compute; reflexivity. Qed.
(** Without wrapping the least value cannot be written. *)
Theorem c41_least_refuted : let C := mkcfg true false false false false false (fun _ => None) (fun _ => 0) [] (fun x => x) false in
  (exists s, parse_num (knot C 5) (zs "1<<31") Programs.blank = Ok (Some (-2147483648)) s) /\
  f_eval (knot C 5) (zs "1<<31") Programs.blank = Undef UB_overflow.
Proof. split; [eexists; vm_compute; reflexivity|vm_compute; reflexivity]. Qed.

Print Assumptions c41_eval.
Print Assumptions c41_define_eval.
Print Assumptions c41_label_partial.
Print Assumptions c41_concat.
Print Assumptions c41_label_refuted.
Print Assumptions c41_redefined_eval_refuted.
Print Assumptions c41_least_refuted.
