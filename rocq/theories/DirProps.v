(** Single directives, for all states.  [.seek], [.option], [.assume], [.error] and the
    directives that do nothing (directive.cpp:20-483). *)
From Coq Require Import String.
From Verif Require Import Base BaseProofs State MonadProofs UtilsModel ErrorsModel StorageModel ParserModel PassTwoModel
  PreopModel PassOneModel DirectiveModel Knot MainModel Programs Validate UtilsSpec UtilsProofs UtilsProps StorageProofs PassTwoSpec PassTwoProofs
  ParserSpec ParserProofs ParserProps StringProps InstrSpec MatchSpec MatchProps AsmSpec AsmExpand AsmProofs AsmData.

(** A directive is written as its word, in any case, blanks, and what follows. *)
Definition word_of (word kw : text) : Prop := eqbl_ci word kw = true.
Lemma dispatch word kw x gap body : word_of word kw -> forallb isalpha kw = true -> (length kw < 32)%nat -> find_ci kw directives = Some x ->
  gap_ok gap -> skip_nonspace (word ++ gap ++ body) = gap ++ body /\ seg (word ++ gap ++ body) (gap ++ body) = word /\
  (if Nat.ltb (length word) 32 then find_ci word directives else None) = Some x.
Proof.
  intros W A L F G. destruct (word_found word [kw] x) as (F1 & F2).
  { unfold word_is. cbn. now rewrite W. }
  { constructor; [|constructor]. auto. }
  split; [now apply skip_word|]. split; [apply seg_app|exact F2].
Qed.
Ltac dispatch := 
  match goal with |- handle_directive _ _ (?w ++ ?g ++ ?b) _ = _ =>
    match goal with H : word_of w (zs ?k) |- _ =>
      let E1 := fresh in let E2 := fresh in let E3 := fresh in
      destruct (dispatch w (zs k) _ g b H eq_refl ltac:(cbn; lia) eq_refl ltac:(assumption)) as (E1 & E2 & E3);
      unfold handle_directive; rewrite E1, E2, E3; clear E1 E2 E3
    end
  end.

(** [w] is a readable expression and every name in it is a label; its value is [v]. *)
Definition stands_for (C : cfg) (s : st) (w : written) (v : Z) : Prop :=
  written_ok (P := no_params) w /\ exists names, (forall m, mentions m (w_expr w) -> resolves C s names m) /\
    value (c_wrap C) (s_pc s) names (w_expr w) = Val v.
Lemma parse_stands C n s w v : (20 <= n)%nat -> stands_for C s w v -> parse_num (knot C n) (w_text w) s = Ok (Some v) (set_depth 0 (set_fwd false s)).
Proof.
  intros Hn ((_ & W & _ & N & _) & names & Rs & V). cbn in N.
  pose proof (c01_left_to_right C n s names (w_expr w) (w_text w) [] [] [] W (Forall_nil _) (Forall_nil _) (or_introl eq_refl) N ltac:(lia) Rs) as P.
  cbv zeta in P. rewrite V in P. cbn [app] in P. now rewrite app_nil_r in P.
Qed.

(** ** .seek *)
(** Nothing but the address counter and the place in the output changes, and both move by the
    same distance. *)
Definition moved_to (v : Z) (s : st) : st := set_pc v (set_pos (s_pos s + (v - s_pc s)) (set_depth 0 (set_fwd false s))).
Lemma seek_steps C n s gap w v rest : (20 <= n)%nat -> gap_ok gap -> line_over rest -> stands_for C s w v ->
  0 <= s_pc s <= 2147483647 -> 0 <= v <= 2147483647 ->
  dir_seek C (knot C n) (skip_ws (gap ++ wr w ++ rest)) s =
  ((if (s_pc s <? v) && (8000000 - s_pos s <? v - s_pc s) then show_fatal_error
    else if v <? s_pc s then whenM (v - s_pc s + s_pos s <? 0) show_fatal_error else ret tt) ;;;
   upd (set_pos (s_pos s + (v - s_pc s))) ;;; upd (set_pc v) ;;; ret rest) (set_depth 0 (set_fwd false s)).
Proof.
  intros Hn (_ & G) Ov S Hpc Hv. rewrite skip_ws_app by exact G.
  unfold dir_seek. unfold bind at 1. rewrite read_skip, (read_written (Pm := no_params) [] w rest s); [|auto|apply S|auto].
  cbn [rx_word rx_ptr]. rewrite (bind_ok _ _ _ _ _ (parse_stands C n s w v Hn S)).
  cbv zeta. cbn [or0]. rewrite bind_get, bind_get. cbn [s_pc s_pos set_depth set_fwd].
  assert (U : u32 v = v) by (unfold u32; apply Z.mod_small; lia).
  assert (Wp : wrap32 (s_pc s) = s_pc s) by (unfold wrap32; rewrite Z.mod_small by lia; lia).
  assert (D : int_res C (v - s_pc s) = ret (v - s_pc s)).
  { unfold int_res, in_int, INT_MIN, INT_MAX. match goal with |- (if ?b then _ else _) = _ => replace b with true by lia end. reflexivity. }
  rewrite U, Wp, D. unfold OUTPUT_BUF_SIZE. unfold bind at 1 6. 
  replace ((s_pc s <? v) && (8000000 - s_pos s <? u32 (v - s_pc s))) with ((s_pc s <? v) && (8000000 - s_pos s <? v - s_pc s)).
  2:{ destruct (s_pc s <? v) eqn:L; [|reflexivity]. cbn [andb]. unfold u32. rewrite Z.mod_small by lia. reflexivity. }
  destruct (_ && _); [reflexivity|]. destruct (v <? s_pc s); reflexivity.
Qed.
Theorem c57_seek : forall C n s word gap w v rest, (20 <= n)%nat -> word_of word (zs "seek") -> gap_ok gap -> line_over rest ->
  stands_for C s w v -> 0 <= s_pc s <= 2147483647 -> 0 <= v <= 2147483647 -> 0 <= s_pos s <= 8000000 ->
  let result := handle_directive C (knot C n) (word ++ gap ++ wr w ++ rest) s in
  (0 <= s_pos s + (v - s_pc s) <= 8000000 -> result = Ok (Some rest) (moved_to v s)) /\
  (~ 0 <= s_pos s + (v - s_pc s) <= 8000000 -> exists s', result = Ok (Some rest) s' /\ s_erroc s' = true /\ 3 <= s_exitc s').
Proof.
  intros C n s word gap w v rest Hn W G Ov S Hpc Hv Hpos result.
  assert (E : result = (let* ' p := dir_seek C (knot C n) (skip_ws (gap ++ wr w ++ rest)) in ret (Some p)) s).
  { unfold result. dispatch. reflexivity. }
  unfold bind at 1 in E. rewrite (seek_steps C n s gap w v rest Hn G Ov S Hpc Hv) in E. split; intros H.
  - replace ((s_pc s <? v) && (8000000 - s_pos s <? v - s_pc s)) with false in E by lia.
    replace (v - s_pc s + s_pos s <? 0) with false in E by lia. rewrite E. now destruct (v <? s_pc s).
  - assert (B : (if (s_pc s <? v) && (8000000 - s_pos s <? v - s_pc s) then show_fatal_error
      else if v <? s_pc s then whenM (v - s_pc s + s_pos s <? 0) show_fatal_error else ret tt) = show_fatal_error).
    { destruct (_ && _) eqn:L; [reflexivity|]. replace (v <? s_pc s) with true by lia. replace (v - s_pc s + s_pos s <? 0) with true by lia. reflexivity. }
    rewrite B in E. rewrite E. eexists. split; [reflexivity|]. split; [reflexivity|].
    cbn. unfold EXIT_FATAL_ERROR. destruct (s_exitc s <? 3) eqn:L; lia.
Qed.

(** A concrete case: the expression of C01, whose value is 25, five bytes in. *)
Definition ex_conf : cfg := mkconf (world_of []) args0.
Definition ex_written : written := mkwritten [] c01_expr (zs "2+ $03 *- (%100-lab)") (zs " ").
Definition ex_state : st := set_pc 8 (set_pos 5 (set_sess 1 c01_state)).
Lemma ex_stands C : c_case C = false -> stands_for C ex_state ex_written 25.
Proof.
  intros Cc. split.
  - split; [constructor|]. split; [exact c01_writes|]. split; [repeat constructor; unfold UtilsSpec.blank; lia|]. split; [vm_compute; discriminate|vm_compute; discriminate].
  - exists c01_names. split; [|reflexivity]. intros m H. assert (E : zs "lab" = m) by (cbn [ex_written w_expr c01_expr mentions term_mentions] in H; tauto). subst m. unfold resolves, key. rewrite Cc.
    split; [reflexivity|]. exists (mklabel (zs "LAB") 1 [] 9). split; reflexivity.
Qed.
Example c57_case : handle_directive ex_conf (knot ex_conf 20) (zs "Seek 2+ $03 *- (%100-lab) ; here") ex_state = Ok (Some (zs "; here")) (moved_to 25 ex_state) /\
  s_pos (moved_to 25 ex_state) = 22.
Proof.
  split; [|reflexivity].
  refine (proj1 (c57_seek ex_conf 20 ex_state (zs "Seek") (zs " ") ex_written 25 (zs "; here") (le_n 20) eq_refl _ _ (ex_stands ex_conf eq_refl) _ _ _) _); try (vm_compute; split; discriminate).
  - split; [discriminate|]. repeat constructor; unfold UtilsSpec.blank; lia.
  - right. exists 59. eexists. split; [reflexivity|]. unfold line_ender. lia.
Qed.
Print Assumptions c57_seek.
(** A [.seek] outside the output is noticed, but the position is moved all the same: the run
    ends by reading or writing outside the output buffer instead of with a message. *)
Theorem c57_reported_refuted :
  match main 100 (world_of [(zs "a.asm", prog [" .seek 9000000"]%string)]) [zs "a.asm"; zs "a.bin"] with Crash UB_outbuf => True | _ => False end /\
  match main 100 (world_of [(zs "a.asm", prog [" .seek 9000000 \ .db 1"]%string)]) [zs "a.asm"; zs "a.bin"] with Crash UB_outbuf => True | _ => False end.
Proof. split; vm_compute; exact I. Qed.
Print Assumptions c57_reported_refuted.

(** C58.  Seeking back to patch a byte cuts off everything behind it: the file ends where the
    last byte was written. *)
Theorem c58_seek_back_refuted :
  Validate.assemble 100 [] (prog [" .db 1,2,3,4,5"; " .seek 1"; " .db 9"]%string) = Some (0, Some [1; 9], []).
Proof. vm_compute. reflexivity. Qed.
Print Assumptions c58_seek_back_refuted.

(** ** .option *)
(** An option as written: a name and perhaps a value, with blanks around it. *)
Record opt := mkopt { p_before : text; p_name : text; p_value : option (list piece); p_after : text }.
Definition opt_operand (o : opt) : UtilsSpec.operand :=
  mkoperand (p_before o) (map PChar (p_name o) ++ match p_value o with Some l => PChar 61 :: l | None => [] end) (p_after o).
Definition opt_ok (o : opt) : Prop :=
  operand_ok (opt_operand o) /\ Forall (fun c => isalnum c = true \/ c = 95) (p_name o) /\ isalpha (hd0 (p_name o)) = true /\
  match p_value o with Some l => exists c t, pieces_text l = c :: t /\ ~ blank c | None => True end.
(** The name that is defined, and its text. *)
Definition opt_define (o : opt) : text := zs "__" ++ p_name o.
Definition opt_text (o : opt) : text := match p_value o with Some l => pieces_text l | None => zs "1" end.
(** What a list of options makes of a name: the last one counts. *)
Fixpoint chosen (C : cfg) (l : list opt) (m : text) : option text :=
  match l with
  | [] => None
  | o :: l' => match chosen C l' m with Some v => Some v | None => if eqbl (key C m) (key C (opt_define o)) then Some (opt_text o) else None end
  end.
Definition contents_in (D : list (text * define)) (k : text) : option (option text) := option_map d_contents (tfind k D).
(** The name is no label, no macro argument and none of the names that change by themselves. *)
Definition free_name (C : cfg) (s : st) (m : text) : Prop :=
  tfind (key C m) (s_labels s) = None /\ find_arg (key C m) (s_args s) = None /\
  key C m <> zs "__LINE" /\ key C m <> zs "__FILE".

Lemma eqbl_false a b : a <> b -> eqbl a b = false.
Proof. intros H. destruct (eqbl a b) eqn:E; [|reflexivity]. now apply eqbl_eq in E. Qed.
Lemma define_free C s m v : m <> [] -> free_name C s m -> exists D r b,
  (add_define C m true s = Ok (Some (r, b)) (set_defines D s) /\ exists D', set_contents r v (set_defines D s) = Ok tt (set_defines D' s) /\
   forall k, contents_in D' k = if eqbl k (key C m) then Some (Some v) else contents_in (s_defines s) k).
Proof.
  intros N (L & A & N1 & N2). unfold add_define. destruct m as [|c m]; [congruence|]. set (k := key C (c :: m)) in *.
  assert (I : key C k = k) by apply key_idem.
  assert (Sl : search_labels C k s = Ok None s) by (unfold search_labels; rewrite bind_get, I, L; reflexivity).
  assert (Sd : search_defines C k true s = Ok (match tfind k (s_defines s) with Some _ => Some (RG k) | None => None end) s).
  { unfold search_defines. rewrite bind_get, bind_get, I. rewrite A, (eqbl_false _ _ N1), (eqbl_false _ _ N2). reflexivity. }
  destruct (tfind k (s_defines s)) as [d|] eqn:E; eexists _, _, _.
  - split.
    + rewrite (bind_ok _ _ _ _ _ Sl), (bind_ok _ _ _ _ _ Sd). unfold bind at 1. rewrite (get_define_ok (RG k) s d E). unfold bind at 1, put_define at 1. cbn [lookup_ref]. rewrite E. reflexivity.
    + unfold set_contents, bind, get_define, put_define, lookup_ref. cbn [s_defines set_defines]. rewrite tfind_tset_same. cbn [s_defines set_defines]. rewrite tfind_tset_same.
      eexists. split; [reflexivity|]. intros k2. unfold contents_in. rewrite !tfind_tset. destruct (eqbl k2 k); reflexivity.
  - split.
    + rewrite (bind_ok _ _ _ _ _ Sl), (bind_ok _ _ _ _ _ Sd). rewrite bind_get, bind_get, bind_get, bind_upd. reflexivity.
    + unfold set_contents, bind, get_define, put_define, lookup_ref. cbn [s_defines set_defines]. rewrite tfind_tset_same. cbn [s_defines set_defines]. rewrite tfind_tset_same.
      eexists. split; [reflexivity|]. intros k2. unfold contents_in. rewrite !tfind_tset. destruct (eqbl k2 k); reflexivity.
Qed.

Lemma name_pieces n : pieces_text (map PChar n) = n.
Proof. unfold pieces_text. induction n as [|c n IH]; [reflexivity|]. cbn [map flat_map piece_text app]. now rewrite IH. Qed.
Lemma opt_body o : operand_text (opt_operand o) = p_name o ++ match p_value o with Some l => 61 :: pieces_text l | None => [] end.
Proof.
  unfold operand_text, opt_operand, pieces_text. cbn [o_body]. rewrite flat_map_app. f_equal; [apply name_pieces|]. now destruct (p_value o).
Qed.
Lemma name_of_option o s : opt_ok o -> read_expr (operand_text (opt_operand o)) (zs "=") s =
  Ok (mkrx true (match p_value o with Some l => 61 :: pieces_text l | None => [] end) (p_name o) false) s.
Proof.
  intros ((_ & _ & _ & _ & _ & Ln) & Nm & Fs & _). rewrite opt_body in *.
  assert (Hc : forall c, isalnum c = true \/ c = 95 -> ~ bracket c /\ ~ line_ender c /\ ~ UtilsSpec.blank c /\ c <> 61).
  { intros c. unfold isalnum, isalpha, isupper, islower, isdigit, bracket, line_ender, UtilsSpec.blank. lia. }
  assert (Ne : p_name o <> []) by (intros E; rewrite E in Fs; discriminate).
  unfold read_expr, read_expr'.
  match goal with |- context [read_expr_gen true (p_name o ++ ?X) _] => pose proof (read_operand_gen (zs "=") (mkoperand [] (map PChar (p_name o)) []) X) as G end.
  unfold operand_text in G. cbn [o_before o_body o_after] in G. rewrite name_pieces in G. cbn [app] in G. rewrite G; [reflexivity| | | |].
  - cbn. lia.
  - auto.
  - unfold operand_okd, operand_text. cbn [o_before o_body o_after]. rewrite name_pieces. split; [constructor|]. split; [constructor|].
    split; [|split; [|split]].
    + apply Forall_map. eapply Forall_impl; [|exact Nm]. intros c H. destruct (Hc c H) as (H1 & H2 & H3 & H4). constructor; [exact H1|]. intros _. split; [|exact H2]. cbn. lia.
    + destruct (p_name o) as [|c t]; [congruence|]. exists c, t. split; [reflexivity|]. inversion Nm; subst. now apply Hc.
    + destruct (exists_last Ne) as (t & c & E). rewrite E in *. exists c, t. split; [reflexivity|]. apply Forall_app in Nm as (_ & Nm). inversion Nm as [|? ? H _]; subst.
      destruct (Hc c H) as (H1 & H2 & H3 & H4). unfold line_ender in H2. split; [exact H3|lia].
    + rewrite zlen_app in Ln. change (zlen (@nil Z)) with 0. pose proof (zlen_nonneg (match p_value o with Some l => 61 :: pieces_text l | None => [] end)).
      pose proof (zlen_nonneg (o_after (opt_operand o))). lia.
  - left. destruct (p_value o); [right|now left]. eexists _, _. split; [reflexivity|]. left. cbn. auto.
Qed.

Lemma set_defines_twice D D' s : set_defines D' (set_defines D s) = set_defines D' s.
Proof. now destruct s. Qed.
Lemma set_defines_same s : set_defines (s_defines s) s = s.
Proof. now destruct s. Qed.
Lemma opt_value_text o : opt_ok o -> let e := skip_char 61 (match p_value o with Some l => 61 :: pieces_text l | None => [] end) in
  (if is_eol (skip_ws e) then zs "1" else e) = opt_text o.
Proof.
  intros ((_ & _ & P & _) & _ & _ & V). unfold opt_text. destruct (p_value o) as [l|] eqn:Ev; [|reflexivity]. cbn [skip_char]. cbn.
  destruct V as (c & t & E & B). rewrite E, (skip_ws_nonblank c t B). replace (is_eol (c :: t)) with false; [reflexivity|]. symmetry.
  cbn in P. rewrite Ev in P. apply Forall_app in P as (_ & P). inversion P as [|? ? _ P']; subst. unfold pieces_text in E. destruct l as [|q l]; [discriminate E|]. inversion P' as [|? ? Pq _]; subst.
  cbn [flat_map] in E. inversion Pq as [top d H1 H2|top d H|top d H|top d|top d F]; subst; cbn [piece_text app] in E; injection E as <- <-; try reflexivity.
  cbn. unfold bracket, line_ender in *. specialize (H2 eq_refl). destruct H2 as (_ & H2). lia.
Qed.
Lemma option_run C rest : line_over rest -> forall l f b s, (length l < f)%nat -> l <> [] -> Forall opt_ok l -> Forall (fun o => free_name C s (opt_define o)) l ->
  exists D, option_loop C f b (list_text (map opt_operand l) ++ rest) s = Ok rest (set_defines D s) /\
    forall m, contents_in D (key C m) = match chosen C l m with Some v => Some (Some v) | None => contents_in (s_defines s) (key C m) end.
Proof.
  intros Ov. induction l as [|o l IH]; intros f b s Hf Nl Ok Fr; [congruence|]. destruct f as [|f]; [cbn in Hf; lia|].
  inversion Ok as [|? ? Oo Ol]; subst. inversion Fr as [|? ? Fo Fl]; subst. cbn [option_loop].
  destruct (define_free C s (opt_define o) (opt_text o) ltac:(discriminate) Fo) as (D1 & r & nw & E1 & D2 & E2 & M).
  set (next := match l with [] => rest | _ => 44 :: list_text (map opt_operand l) ++ rest end).
  assert (Et : list_text (map opt_operand (o :: l)) ++ rest = o_before (opt_operand o) ++ operand_text (opt_operand o) ++ o_after (opt_operand o) ++ next).
  { unfold next. destruct l as [|o2 l]; cbn [map list_text]; rewrite <- !app_assoc; reflexivity. }
  assert (Nx : (exists t, next = 44 :: t) \/ stops_list next).
  { unfold next. destruct l; [right|left; eauto]. destruct Ov as [->|(c & t & -> & H)]; [now left|right; eauto]. }
  assert (Ex : forall more, option_loop C (S f) more (list_text (map opt_operand (o :: l)) ++ rest) s =
    option_loop C f (hd0 next =? 44) (if hd0 next =? 44 then tl next else next) (set_defines D2 s)).
  { intros more. cbn [option_loop]. rewrite Et. rewrite (bind_ok _ _ _ _ _ (extract_operand (opt_operand o) next more s (proj1 Oo) Nx)).
    rewrite (bind_ok _ _ _ _ _ (name_of_option o s Oo)). cbn [rx_word rx_ptr]. replace (isalpha (hd0 (p_name o))) with true by (symmetry; apply Oo). cbn [negb].
    change (zs "__" ++ p_name o) with (opt_define o). rewrite (bind_ok _ _ _ _ _ E1). rewrite (opt_value_text o Oo). rewrite (bind_ok _ _ _ _ _ E2). reflexivity. }
  specialize (Ex b). cbn [option_loop] in Ex. rewrite Ex. clear Ex. destruct l as [|o2 l].
  - exists D2. split.
    + unfold next. replace (hd0 rest =? 44) with false.
      2:{ destruct Ov as [->|(c & t & -> & H)]; [reflexivity|]. cbn. unfold line_ender in H. lia. }
      destruct f as [|f]; [cbn in Hf; lia|]. cbn [option_loop].
      assert (St : stops_list rest) by (destruct Ov as [->|(c & t & -> & H)]; [now left|right; eauto]).
      rewrite (bind_ok _ _ _ _ _ (UtilsProps.extract_none rest _ St)). reflexivity.
    + intros m. rewrite M. cbn [chosen]. destruct (eqbl (key C m) (key C (opt_define o))); reflexivity.
  - unfold next. cbn [hd0 tl]. change (44 =? 44) with true. cbn iota.
    destruct (IH f true (set_defines D2 s) ltac:(cbn in *; lia) ltac:(discriminate) Ol Fl) as (D & E & H).
    exists D. split; [rewrite set_defines_twice in E; exact E|]. intros m. rewrite H. cbn [s_defines set_defines]. rewrite M.
    change (chosen C (o :: o2 :: l) m) with (match chosen C (o2 :: l) m with Some v => Some v | None => if eqbl (key C m) (key C (opt_define o)) then Some (opt_text o) else None end).
    destruct (chosen C (o2 :: l) m); [reflexivity|]. destruct (eqbl _ _); reflexivity.
Qed.
Lemma opt_first o : opt_ok o -> exists c t, operand_text (opt_operand o) = c :: t /\ ~ UtilsSpec.blank c.
Proof. intros ((_ & _ & _ & H & _) & _). exact H. Qed.
Lemma opts_length l : Forall opt_ok l -> (length l <= length (list_text (map opt_operand l)))%nat.
Proof.
  induction 1 as [|o l Ho Hl IH]; [cbn; lia|]. destruct (opt_first o Ho) as (c & t & E & _). destruct l as [|o2 l].
  - cbn [map list_text]. rewrite E, !app_length. cbn [length app]. rewrite ?app_length. cbn [length]. lia.
  - change (list_text (map opt_operand (o :: o2 :: l))) with (o_before (opt_operand o) ++ operand_text (opt_operand o) ++ o_after (opt_operand o) ++ 44 :: list_text (map opt_operand (o2 :: l))).
    rewrite E, !app_length. cbn [app length] in *. lia.
Qed.
Lemma opts_skip l rest : Forall opt_ok l -> (length l <= length (skip_ws (list_text (map opt_operand l) ++ rest)))%nat.
Proof.
  intros F. destruct l as [|o l]; [cbn; lia|]. inversion F as [|? ? Ho Hl]; subst. destruct (opt_first o Ho) as (c & t & E & B). destruct Ho as ((Bf & _) & _).
  pose proof (opts_length l Hl) as L. destruct l as [|o2 l].
  - cbn [map list_text]. rewrite <- !app_assoc, (skip_ws_app _ _ Bf), E. cbn [app]. rewrite skip_ws_nonblank by exact B. cbn [length]. lia.
  - change (list_text (map opt_operand (o :: o2 :: l))) with (o_before (opt_operand o) ++ operand_text (opt_operand o) ++ o_after (opt_operand o) ++ 44 :: list_text (map opt_operand (o2 :: l))).
    rewrite <- !app_assoc, (skip_ws_app _ _ Bf), E. cbn [app]. rewrite skip_ws_nonblank by exact B.
    cbn [length]. rewrite !app_length. cbn [length]. rewrite !app_length. cbn [length] in L. lia.
Qed.
Theorem c59_option : forall C n s word gap l rest, word_of word (zs "option") -> gap_ok gap -> line_over rest ->
  l <> [] -> Forall opt_ok l -> Forall (fun o => free_name C s (opt_define o)) l ->
  exists D, handle_directive C (knot C n) (word ++ gap ++ list_text (map opt_operand l) ++ rest) s = Ok (Some rest) (set_defines D s) /\
    forall m, contents_in D (key C m) = match chosen C l m with Some v => Some (Some v) | None => contents_in (s_defines s) (key C m) end.
Proof.
  intros C n s word gap l rest W G Ov Nl Ol Fl. pose proof (proj2 G) as Gb.
  set (q := list_text (map opt_operand l) ++ rest).
  assert (Sk : forall f s', option_loop C (S f) true (skip_ws q) s' = option_loop C (S f) true q s').
  { intros f s'. cbn [option_loop]. unfold bind at 1. rewrite extract_skip. reflexivity. }
  destruct (option_run C rest Ov l (S (length (skip_ws q))) true s) as (D & E & H); auto.
  { pose proof (opts_skip l rest Ol). unfold q. lia. }
  exists D. split; [|exact H].
  assert (Ed : handle_directive C (knot C n) (word ++ gap ++ q) s = (let* ' p := option_loop C (S (length (skip_ws q))) true (skip_ws q) in ret (Some p)) s).
  { dispatch. rewrite (skip_ws_app _ _ Gb). reflexivity. }
  fold q in E. rewrite Ed. unfold bind. rewrite Sk, E. reflexivity.
Qed.
Example c59_case : let l := [mkopt [] (zs "bm_shd") (Some [PChar 50]) (zs " "); mkopt (zs " ") (zs "flag") None []; mkopt [] (zs "name") (Some [PStr [SC 97; SC 44]]) []] in
  Forall opt_ok l /\ Forall (fun o => free_name ex_conf ex_state (opt_define o)) l /\ list_text (map opt_operand l) = zs "bm_shd=2 , flag,name=""a,""" /\
  chosen ex_conf l (zs "__BM_SHD") = Some (zs "2") /\ chosen ex_conf l (zs "__flag") = Some (zs "1").
Proof.
  assert (Nm : forall n, forallb (fun c => isalnum c || (c =? 95)) n = true -> Forall (fun c => isalnum c = true \/ c = 95) n).
  { intros n H. apply Forall_forall. intros c I. rewrite forallb_forall in H. specialize (H c I). cbn beta in H. apply orb_true_iff in H as [H|H]; [now left|right; lia]. }
  assert (Ck : forall c, forallb (fun k => negb (c =? k)) [34; 39; 92; 40; 41; 44; 10; 13; 59] = true -> piece_ok [44] true (PChar c)).
  { intros c H. cbn [forallb] in H. constructor; [unfold bracket; lia|]. intros _. unfold line_ender. cbn [In]. lia. }
  split; [|split; [|repeat split; reflexivity]].
  - assert (B1 : Forall UtilsSpec.blank (zs " ")) by (repeat constructor; unfold UtilsSpec.blank; lia).
    repeat apply Forall_cons; [| | |apply Forall_nil]; (split; [|split; [apply Nm; reflexivity|split; [reflexivity|]]]).
    + refine (conj (Forall_nil _) (conj B1 (conj _ (conj _ (conj _ _))))).
      * cbn. repeat (apply Forall_cons; [apply Ck; reflexivity|]). apply Forall_nil.
      * eexists _, _. split; [reflexivity|vm_compute; intuition discriminate].
      * exists 50, (zs "bm_shd="). split; [reflexivity|vm_compute; intuition discriminate].
      * vm_compute. discriminate.
    + exists 50, []. split; [reflexivity|vm_compute; intuition discriminate].
    + refine (conj B1 (conj (Forall_nil _) (conj _ (conj _ (conj _ _))))).
      * cbn. repeat (apply Forall_cons; [apply Ck; reflexivity|]). apply Forall_nil.
      * eexists _, _. split; [reflexivity|vm_compute; intuition discriminate].
      * exists 103, (zs "fla"). split; [reflexivity|vm_compute; intuition discriminate].
      * vm_compute. discriminate.
    + exact I.
    + refine (conj (Forall_nil _) (conj (Forall_nil _) (conj _ (conj _ (conj _ _))))).
      * cbn. repeat (apply Forall_cons; [apply Ck; reflexivity|]). apply Forall_cons; [|apply Forall_nil]. constructor. repeat constructor; cbn; lia.
      * eexists _, _. split; [reflexivity|vm_compute; intuition discriminate].
      * exists 34, (zs "name=""a,"). split; [reflexivity|vm_compute; intuition discriminate].
      * vm_compute. discriminate.
    + eexists _, _. split; [reflexivity|vm_compute; intuition discriminate].
  - repeat constructor; vm_compute; congruence.
Qed.
Print Assumptions c59_option.
(** A label with the name of the option makes the assembler dereference a null pointer. *)
Theorem c59_label_refuted :
  match main 100 (world_of [(zs "a.asm", prog ["__a: .option a=5"]%string)]) [zs "a.asm"; zs "a.bin"] with Crash UB_null => True | _ => False end.
Proof. vm_compute. exact I. Qed.
Print Assumptions c59_label_refuted.

(** ** .assume *)
Lemma chars_ok delims n : Forall (fun c => ~ bracket c /\ ~ line_ender c /\ ~ In c delims) n -> Forall (piece_ok delims true) (map PChar n).
Proof. intros F. apply Forall_map. eapply Forall_impl; [|exact F]. intros c (H1 & H2 & H3). constructor; [exact H1|]. now intros _. Qed.
Lemma adl_chars word : word_of word (zs "adl") -> Forall (fun c => ~ bracket c /\ ~ line_ender c /\ c <> 61 /\ ~ UtilsSpec.blank c) word /\ length word = 3%nat.
Proof.
  intros W. destruct (word_same _ _ W) as (_ & L & F). split; [|exact L].
  assert (A : Forall (fun c => isalpha c = true) (zs "adl")) by (repeat constructor).
  clear W L. revert F A. generalize (zs "adl"). intros k F A. revert word F.
  induction A as [|d k Ha A IH]; intros word F; inversion F as [|c ? word' ? Ec F']; subst; constructor.
  - clear -Ha Ec. rename Ec into E. unfold bracket, line_ender, UtilsSpec.blank. unfold isalpha, tolower, isupper, islower in *. destruct (_ && _) eqn:? in E; destruct (_ && _) eqn:? in E; lia.
  - now apply IH.
Qed.
Theorem c60_assume : forall C n s word gap adl b w v rest, (20 <= n)%nat -> word_of word (zs "assume") -> gap_ok gap -> line_over rest ->
  word_of adl (zs "adl") -> Forall UtilsSpec.blank b -> stands_for C s w v -> zlen (adl ++ b ++ 61 :: wr w) <= 254 ->
  let result := handle_directive C (knot C n) (word ++ gap ++ adl ++ b ++ 61 :: wr w ++ rest) s in
  let s1 := set_depth 0 (set_fwd false s) in
  result = Ok (Some rest) (if c_ez80 C then set_adl (negb (v =? 0)) s1 else noted false SPASM_ERR_INVALID_OPTION s1).
Proof.
  intros C n s word gap adl b w v rest Hn W G Ov A B S Ln result s1. destruct (adl_chars adl A) as (Ac & Al).
  destruct (written_operand (Pm := no_params) [] w (or_introl eq_refl) (proj1 S)) as (l & El & (B1 & B2 & Fl & Hd & Tl & _)). unfold operand_text in Hd, Tl.
  cbn [o_before o_after o_body] in *. rewrite El in *.
  assert (Bl : forall k, Forall UtilsSpec.blank k -> Forall (fun c => ~ bracket c /\ ~ line_ender c /\ ~ In c []) k).
  { intros k F. eapply Forall_impl; [|exact F]. intros c H. unfold bracket, line_ender, UtilsSpec.blank in *. cbn. lia. }
  set (body := map PChar (adl ++ b ++ 61 :: w_before w) ++ l).
  assert (Eb : pieces_text body = adl ++ b ++ 61 :: w_before w ++ w_text w).
  { unfold body, pieces_text. rewrite flat_map_app. change (flat_map piece_text (map PChar (adl ++ b ++ 61 :: w_before w))) with (pieces_text (map PChar (adl ++ b ++ 61 :: w_before w))).
    rewrite name_pieces. change (flat_map piece_text l) with (pieces_text l). rewrite El, <- !app_assoc. reflexivity. }
  assert (Rd : read_expr (skip_ws (gap ++ adl ++ b ++ 61 :: wr w ++ rest)) [] s = Ok (mkrx true rest (adl ++ b ++ 61 :: w_before w ++ w_text w) false) s).
  { rewrite read_skip. pose proof (read_operand_gen [] (mkoperand gap body (w_after w)) rest) as Q. unfold operand_text in Q. cbn [o_before o_body o_after] in Q. rewrite Eb in Q.
    replace (gap ++ adl ++ b ++ 61 :: wr w ++ rest) with (gap ++ (adl ++ b ++ 61 :: w_before w ++ w_text w) ++ w_after w ++ rest).
    2:{ unfold wr. rewrite <- !app_assoc. cbn [app]. rewrite <- !app_assoc. reflexivity. }
    unfold read_expr, read_expr'. rewrite Q; [reflexivity|cbn; lia|right; cbn; easy| |right; now apply over_stops].
    unfold operand_okd, operand_text. cbn [o_before o_body o_after]. rewrite Eb. split; [apply G|]. split; [exact B2|]. split; [|split; [|split]].
    - unfold body. apply Forall_app. split; [|exact Fl]. apply chars_ok. rewrite !Forall_app. split; [|split; [now apply Bl|]].
      + eapply Forall_impl; [|exact Ac]. cbn. tauto.
      + constructor; [unfold bracket, line_ender; cbn; lia|now apply Bl].
    - destruct adl as [|c t]; [discriminate|]. eexists c, _. split; [reflexivity|]. inversion Ac; subst. tauto.
    - destruct Tl as (c & t & E & H). exists c, (adl ++ b ++ 61 :: w_before w ++ t). split; [|exact H]. rewrite E, <- !app_assoc. cbn [app]. now rewrite <- !app_assoc.
    - unfold wr in Ln. rewrite !zlen_app, zlen_cons, !zlen_app in *. lia. }
  assert (Rn : read_expr (adl ++ b ++ 61 :: w_before w ++ w_text w) (zs "=") s = Ok (mkrx true (61 :: w_before w ++ w_text w) adl false) s).
  { pose proof (read_operand_gen (zs "=") (mkoperand [] (map PChar adl) b) (61 :: w_before w ++ w_text w)) as Q. unfold operand_text in Q. cbn [o_before o_body o_after] in Q. rewrite name_pieces in Q. cbn [app] in Q.
    unfold read_expr, read_expr'. rewrite Q; [reflexivity|cbn; lia| | |left; right; eexists _, _; split; [reflexivity|cbn; auto]].
    - right. cbn. intros c [<-|[]]. unfold UtilsSpec.blank. lia.
    - unfold operand_okd, operand_text. cbn [o_before o_body o_after]. rewrite name_pieces. split; [constructor|]. split; [exact B|]. split; [|split; [|split]].
      + apply chars_ok. eapply Forall_impl; [|exact Ac]. intros c (H1 & H2 & H3 & H4). cbn. split; [exact H1|]. split; [exact H2|]. lia.
      + destruct adl as [|c t]; [discriminate|]. eexists c, _. split; [reflexivity|]. inversion Ac; subst. tauto.
      + destruct (exists_last (l := adl)) as (t & c & E); [intros E; now rewrite E in Al|]. rewrite E in *. exists c, t. split; [reflexivity|]. apply Forall_app in Ac as (_ & Ac). inversion Ac as [|? ? (H1 & H2 & H3 & H4) _]; subst.
        unfold line_ender in H2. split; [exact H4|lia].
      + rewrite !zlen_app, zlen_cons in Ln. pose proof (zlen_nonneg (wr w)). lia. }
  assert (Pn : parse_num (knot C n) (w_before w ++ w_text w) s = Ok (Some v) s1).
  { destruct S as ((_ & Wt & _ & N & _) & names & Rs & V). cbn in N.
    pose proof (c01_left_to_right C n s names (w_expr w) (w_text w) (w_before w) [] [] Wt B1 (Forall_nil _) (or_introl eq_refl) N ltac:(lia) Rs) as P.
    cbv zeta in P. rewrite V in P. cbn [app] in P. rewrite app_nil_r in P. exact P. }
  assert (E : result = (let* ' p := dir_assume C (knot C n) (skip_ws (gap ++ adl ++ b ++ 61 :: wr w ++ rest)) in ret (Some p)) s).
  { unfold result. dispatch. reflexivity. }
  rewrite E. clear E. unfold dir_assume. rewrite bind_assoc, (bind_ok _ _ _ _ _ Rd). cbn [rx_word rx_ptr]. rewrite bind_assoc, (bind_ok _ _ _ _ _ Rn). cbn [rx_word rx_ptr hd0 tl].
  change (61 =? 61) with true. cbn iota. rewrite bind_assoc, (bind_ok _ _ _ _ _ Pn). rewrite A, andb_true_r. destruct (c_ez80 C); reflexivity.
Qed.
Example c60_case : handle_directive ex_conf (knot ex_conf 20) (zs "ASSUME Adl = 2+ $03 *- (%100-lab) ") ex_state
  = Ok (Some []) (noted false SPASM_ERR_INVALID_OPTION (set_depth 0 (set_fwd false ex_state))) /\
  let C := mkcfg true false false false true false (fun _ => None) (fun _ => 0) [] (fun x => x) false in
  c_ez80 C = true /\ s_adl ex_state = false /\ match handle_directive C (knot C 20) (zs "ASSUME Adl = 2+ $03 *- (%100-lab) ") ex_state with Ok _ s' => s_adl s' = true | _ => False end.
Proof. vm_compute. auto. Qed.
Print Assumptions c60_assume.

(** ** The directives that do nothing, and .error *)
Theorem c61_nothing : forall C n s word kw gap body, In kw [zs "end"; zs "list"; zs "nolist"] -> word_of word kw -> gap_ok gap ->
  handle_directive C (knot C n) (word ++ gap ++ body) s = Ok (Some (skip_ws body)) s.
Proof.
  intros C n s word kw gap body [<-|[<-|[<-|[]]]] W G; dispatch; rewrite skip_ws_app by apply G; reflexivity.
Qed.
(** [.end] does nothing either: what follows it is assembled. *)
Theorem c61_end_refuted : Validate.assemble 100 [] (prog [" .db 1"; " .end"; " .db 2"]%string) = Some (0, Some [1; 2], []).
Proof. vm_compute. reflexivity. Qed.
Print Assumptions c61_nothing.
Print Assumptions c61_end_refuted.

(** ** Text that is printed *)
(** What an item of a list says: a string literal its text, an expression its value in decimal. *)
Definition says (C : cfg) (s : st) (d : datum) (t : text) : Prop :=
  match d with
  | DStr _ u _ => t = u
  | DNum w => exists v, stands_for C s w v /\ t = dec v
  end.
(** Evaluating has reset two fields of the evaluator, or there was nothing to evaluate. *)
Definition calm (s s' : st) : Prop := s' = s \/ s' = set_depth 0 (set_fwd false s).
Lemma calm_trans s s1 s2 : calm s s1 -> calm s1 s2 -> calm s s2.
Proof. unfold calm. intros [->| ->] [->| ->]; auto. Qed.
Lemma calm_settled b s : calm s (settled b s).
Proof. destruct b; [now right|now left]. Qed.
(** Problems noted belong to open sessions. *)
Definition open_only (s : st) : Prop := 1 <= s_sess s /\ Forall (fun e => e_sess e <= s_sess s) (s_errs s).
Lemma open_calm s s' : calm s s' -> open_only s -> open_only s'.
Proof. intros [->| ->]; auto. Qed.
Lemma stands_calm C s s' w v : calm s s' -> stands_for C s w v -> stands_for C s' w v.
Proof. intros [->| ->]; auto. Qed.
Lemma says_calm C s s' d t : calm s s' -> says C s d t -> says C s' d t.
Proof. intros [->| ->]; auto. Qed.
Lemma above k l : Forall (fun e => e_sess e <= k) l -> lead (k + 1) l = [] /\ unlead (k + 1) l = l /\ replay_up (k + 1) l = l.
Proof. destruct 1 as [|e l H _]; [auto|]. cbn. replace (e_sess e =? k + 1) with false by lia. auto. Qed.

Lemma emit_one C n s d t ty x : (20 <= n)%nat -> is_data ty = false -> open_only s -> datum_ok (P := no_params) d -> says C s d t ->
  exists s' y, emit_word C (knot C n) (body d) ty x s = Ok (t, y) s' /\ calm s s'.
Proof.
  intros Hn Ty (S1 & S2) O Sy. destruct d as [w|b u a]; cbn [body says datum_ok] in *.
  - destruct Sy as (v & St & ->). unfold emit_word.
    replace (hd0 (w_text w) =? 34) with false.
    2:{ symmetry. apply Z.eqb_neq. apply (proj2 writes_quote (w_expr w)). apply O. }
    unfold start_session. rewrite !bind_assoc, bind_get, !bind_assoc, bind_upd, bind_ret.
    assert (P : parse_num (knot C n) (w_text w) (set_sess (s_sess s + 1) s) = Ok (Some v) (set_depth 0 (set_fwd false (set_sess (s_sess s + 1) s)))).
    { apply parse_stands; [exact Hn|exact St]. }
    rewrite (bind_ok _ _ _ _ _ P), bind_get. rewrite Ty, bind_ret. destruct (above _ _ S2) as (_ & U & Rp).
    unfold replay_session, end_session. rewrite bind_assoc, bind_get. replace (s_sess s + 1 =? 1) with false by lia. cbn [s_errs set_sess set_fwd set_depth]. rewrite Rp.
    rewrite bind_upd, !bind_assoc, bind_get, !bind_assoc, bind_get. cbn [s_errs s_sess set_errs set_sess set_fwd set_depth]. rewrite U.
    rewrite !bind_assoc, bind_upd, !bind_assoc, bind_upd. cbn [andb]. rewrite bind_ret. eexists _, _. split; [reflexivity|]. right.
    replace (s_sess s + 1 - 1) with (s_sess s) by lia. now destruct s.
  - subst u. unfold emit_word. change (hd0 (lit_text t) =? 34) with true. cbv iota.
    assert (Nx : next_expr (lit_text t) EXPR_DELIMS = []).
    { rewrite <- lit_pieces. rewrite <- (app_nil_r (pieces_text _)). apply (next_expr_pieces EXPR_DELIMS ltac:(vm_compute; intuition lia) []).
      - constructor.
      - constructor; [|constructor]. constructor. apply lit_items_ok.
      - right. rewrite lit_pieces. exists 34. eexists. split; [reflexivity|]. unfold UtilsSpec.blank. lia.
      - now left.
      - discriminate. }
    rewrite Nx, lit_escape, Ty. destruct n as [|n]; [lia|]. destruct O as (_ & _ & F & _).
    destruct (c06_round_trip C n t s) as (used & Er2). { eapply Forall_impl; [|exact F]. cbn. intros c Hc. lia. }
    rewrite (bind_ok _ _ _ _ _ Er2). exists (settled used s), x. split; [reflexivity|apply calm_settled].
Qed.
Lemma emit_list C n ty rest : (20 <= n)%nat -> is_data ty = false -> line_over rest -> forall l ts s f x more, (length l < f)%nat -> l <> [] -> open_only s ->
  Forall (datum_ok (P := no_params)) l -> Forall2 (says C s) l ts ->
  exists s', emit_loop C (knot C n) f ty x more (data_text l ++ rest) s = Ok (rest, List.concat ts) s' /\ calm s s'.
Proof.
  intros Hn Ty Ov. induction l as [|d l IH]; intros ts s f x more Hf Nl Op F Sy; [congruence|]. destruct f as [|f]; [cbn in Hf; lia|].
  inversion F as [|? ? Fd Fl]; subst. inversion Sy as [|? t ? ts' Sd Sl]; subst.
  set (next := match l with [] => rest | _ => 44 :: data_text l ++ rest end).
  assert (Et : data_text (d :: l) ++ rest = datum_text d ++ next).
  { unfold next. destruct l; cbn [data_text]; [reflexivity|]. now rewrite <- app_assoc. }
  assert (Nx : (exists t, next = 44 :: t) \/ line_over next) by (unfold next; destruct l; [now right|left; eauto]).
  cbn [emit_loop]. rewrite Et, (bind_ok _ _ _ _ _ (extract_datum (Pm := no_params) d next more s Fd Nx)).
  destruct (emit_one C n s d t ty x Hn Ty Op Fd Sd) as (s1 & y & E1 & C1). rewrite (bind_ok _ _ _ _ _ E1).
  destruct l as [|d2 l].
  - unfold next. inversion Sl; subst. replace (hd0 rest =? 44) with false.
    2:{ destruct Ov as [->|(c & u & -> & H)]; [reflexivity|]. cbn. unfold line_ender in H. lia. }
    destruct f as [|f]; [cbn in Hf; lia|]. exists s1. split; [|exact C1]. cbn [emit_loop]. rewrite bind_assoc, (bind_ok _ _ _ _ _ (extract_end rest s1 Ov)). reflexivity.
  - unfold next. cbn [hd0 tl]. change (44 =? 44) with true. cbv iota.
    destruct (IH ts' s1 f y true) as (s2 & E2 & C2); auto.
    { cbn in *. lia. } { discriminate. } { now apply (open_calm s). }
    { revert Sl. clear -C1. induction 1; constructor; auto. now apply (says_calm C s). }
    exists s2. split; [|now apply (calm_trans s s1)]. rewrite (bind_ok _ _ _ _ _ E2). reflexivity.
Qed.
Lemma data_length : forall l, Forall (datum_ok (P := no_params)) l -> forall rest, l <> [] -> (length l <= length (skip_ws (data_text l ++ rest)))%nat.
Proof.
  assert (G : forall d, datum_ok (P := no_params) d -> exists b c t, datum_text d = b ++ c :: t /\ Forall UtilsSpec.blank b /\ ~ UtilsSpec.blank c).
  { intros d Hd. destruct (datum_operand (Pm := no_params) d Hd) as (l & E & (B & _ & _ & (c & t & Ec & Nc) & _)). unfold operand_text in Ec. cbn [o_body] in Ec. rewrite E in Ec.
    rewrite datum_parts, Ec. exists (before d), c, (t ++ after_ d). auto. }
  assert (L : forall l, Forall (datum_ok (P := no_params)) l -> (length l <= length (data_text l))%nat).
  { induction l as [|d l IH]; intros F; [cbn; lia|]. inversion F as [|? ? Fd Fl]; subst. specialize (IH Fl). destruct (G d Fd) as (b & c & t & E & _).
    destruct l as [|d2 l]; cbn [data_text length] in *; rewrite E, ?app_length; cbn [length]; rewrite ?app_length; cbn [length] in *; lia. }
  intros l F rest N. destruct l as [|d l]; [congruence|]. inversion F as [|? ? Fd Fl]; subst. pose proof (L l Fl) as Ll. destruct (G d Fd) as (b & c & t & E & Hb & Hc).
  destruct l as [|d2 l].
  - cbn [data_text]. rewrite E, <- app_assoc, (skip_ws_app _ _ Hb). cbn [app]. rewrite skip_ws_nonblank by exact Hc. cbn [length]. lia.
  - change (data_text (d :: d2 :: l)) with (datum_text d ++ 44 :: data_text (d2 :: l)). rewrite E, <- !app_assoc, (skip_ws_app _ _ Hb). cbn [app]. rewrite skip_ws_nonblank by exact Hc.
    cbn [length]. rewrite app_length. cbn [length]. rewrite app_length. cbn [length] in Ll. lia.
Qed.
Lemma emit_run C n s ty l ts rest : (20 <= n)%nat -> is_data ty = false -> line_over rest -> l <> [] -> open_only s ->
  Forall (datum_ok (P := no_params)) l -> Forall2 (says C s) l ts ->
  exists s', f_emit (knot C (S n)) (skip_ws (data_text l ++ rest)) ty s =
    Ok (rest, List.concat ts ++ match ty with E_STDOUT => if s_emitlev s =? 0 then [10] else [] | _ => [] end) s' /\ calm s s'.
Proof.
  intros Hn Ty Ov Nl Op F Sy. change (f_emit (knot C (S n))) with (parse_emit_string C (knot C n)).
  destruct (emit_list C n ty rest Hn Ty Ov l ts (set_emitlev (s_emitlev s + 1) s) (S (length (skip_ws (data_text l ++ rest)))) None true) as (s' & E & Cm).
  { pose proof (data_length l F rest Nl). lia. } { exact Nl. } { exact Op. } { exact F. } { exact Sy. }
  exists (set_emitlev (s_emitlev s) s'). split.
  - unfold parse_emit_string. rewrite bind_get, bind_upd. unfold bind at 1. rewrite emit_skip, E. rewrite bind_get, bind_upd.
    assert (Lv : s_emitlev s' = s_emitlev s + 1) by (destruct Cm as [->| ->]; reflexivity). rewrite Lv.
    replace (s_emitlev s + 1 - 1) with (s_emitlev s) by lia. replace (s_emitlev s + 1 =? 1) with (s_emitlev s =? 0) by lia. reflexivity.
  - destruct Cm as [->| ->]; [left|right]; now destruct s.
Qed.

(** [.error] always notes an error, and reading its message changes nothing. *)
Theorem c61_error : forall C n s word gap l ts rest, (20 <= n)%nat -> word_of word (zs "error") -> gap_ok gap -> line_over rest ->
  l <> [] -> open_only s -> Forall (datum_ok (P := no_params)) l -> Forall2 (says C s) l ts ->
  exists s', handle_directive C (knot C (S n)) (word ++ gap ++ data_text l ++ rest) s = Ok (Some rest) (noted false SPASM_ERR_CUSTOM s') /\ calm s s'.
Proof.
  intros C n s word gap l ts rest Hn W G Ov Nl Op F Sy. destruct (emit_run C n s E_FCREATE l ts rest Hn eq_refl Ov Nl Op F Sy) as (s' & E & Cm).
  exists s'. split; [|exact Cm]. dispatch. rewrite skip_ws_app by apply G. rewrite (bind_ok _ _ _ _ _ E). reflexivity.
Qed.
(** An error of this kind ends the session of the pass, and with it the run, with status 3. *)
Theorem c61_fatal : forall s, s_sess s = 1 -> end_session 1 (noted false SPASM_ERR_CUSTOM s) = Exit 3 (set_sess 0 (set_errs (unlead 1 (s_errs s)) s)).
Proof.
  intros s H. unfold end_session, noted. rewrite bind_get, bind_get, bind_upd, bind_upd. cbn [s_errs set_errs lead unlead e_sess s_sess]. rewrite H. reflexivity.
Qed.
Definition ex_list : list datum := [DStr [] (zs "at ""lab""+") (zs " "); DNum ex_written].
Lemma ex_list_ok : Forall (datum_ok (P := no_params)) ex_list /\ Forall2 (says ex_conf ex_state) ex_list [zs "at ""lab""+"; zs "25"].
Proof.
  split.
  - constructor; [|constructor; [apply (ex_stands ex_conf eq_refl)|constructor]]. split; [constructor|]. split; [repeat constructor; unfold UtilsSpec.blank; lia|]. split; [|vm_compute; discriminate].
    let l := eval vm_compute in (zs "at ""lab""+") in change (zs "at ""lab""+") with l. repeat (apply Forall_cons; [lia|]). apply Forall_nil.
  - constructor; [reflexivity|]. constructor; [|constructor]. exists 25. split; [apply (ex_stands ex_conf eq_refl)|reflexivity].
Qed.
Example c61_case : open_only ex_state /\ data_text ex_list = zs """at \""lab\""+"" ,2+ $03 *- (%100-lab) " /\
  handle_directive ex_conf (knot ex_conf 21) (zs "error ""at \""lab\""+"" ,2+ $03 *- (%100-lab) ") ex_state =
  Ok (Some []) (noted false SPASM_ERR_CUSTOM (set_depth 0 (set_fwd false ex_state))) /\
  Validate.assemble 100 [] (prog [" .db 1"; " .error ""stop"""; " .db 2"]%string) = Some (3, None, [SPASM_ERR_CUSTOM]).
Proof. split; [split; [cbn; lia|constructor]|]. vm_compute. auto. Qed.
Print Assumptions c61_error.
Print Assumptions c61_fatal.

(** ** .echo *)
Lemma data_pieces l : Forall (datum_ok (P := no_params)) l -> exists b, pieces_text b = data_text l /\ Forall (piece_ok [] true) b.
Proof.
  assert (B : forall k, Forall UtilsSpec.blank k -> Forall (piece_ok [] true) (map PChar k)).
  { intros k F. apply chars_ok. eapply Forall_impl; [|exact F]. intros c H. unfold bracket, line_ender, UtilsSpec.blank in *. cbn. lia. }
  assert (G : forall d, datum_ok (P := no_params) d -> exists b, pieces_text b = datum_text d /\ Forall (piece_ok [] true) b).
  { intros d Hd. destruct (datum_operand (Pm := no_params) d Hd) as (k & E & (B1 & B2 & Fk & _)). cbn [o_before o_after o_body] in *.
    exists (map PChar (before d) ++ k ++ map PChar (after_ d)). split.
    - unfold pieces_text in *. rewrite !flat_map_app, E, datum_parts. f_equal; [apply name_pieces|]. f_equal. apply name_pieces.
    - apply Forall_app. split; [now apply B|]. apply Forall_app. split; [|now apply B]. eapply Forall_impl; [|exact Fk]. intros q. apply piece_any. }
  induction l as [|d l IH]; intros F; [exists []; now split|]. inversion F as [|? ? Fd Fl]; subst. destruct (G d Fd) as (b1 & E1 & H1). destruct (IH Fl) as (b2 & E2 & H2).
  destruct l as [|d2 l]; [exists b1; now split|]. exists (b1 ++ PChar 44 :: b2). split.
  - unfold pieces_text in *. rewrite flat_map_app. cbn [flat_map piece_text app]. rewrite E1, E2. reflexivity.
  - apply Forall_app. split; [exact H1|]. constructor; [|exact H2]. constructor; [unfold bracket; lia|]. intros _. split; [easy|unfold line_ender; lia].
Qed.
Lemma skip_escaped t : skip_string (escape_body t ++ [34]) = [34].
Proof.
  induction t as [|c t IH]; [reflexivity|]. cbn [escape_body]. destruct (Z.eqb_spec c 34) as [->|N1]; [exact IH|]. destruct (Z.eqb_spec c 92) as [->|N2]; [exact IH|].
  cbn [app skip_string]. replace (c =? 34) with false by lia. replace (c =? 92) with false by lia. exact IH.
Qed.
Lemma expand_string C n t s : expand_expr (knot C (S n)) (escape_string t) true s = Ok (escape_string t) s.
Proof.
  unfold expand_expr. change (f_expand (knot C (S n))) with (expand_expr_full C (knot C n)). unfold expand_expr_full. change (RECURSION_LIMIT <? 0) with false. cbv iota.
  unfold escape_string. cbn [length expand_loop hd0 tl]. change (34 =? 34) with true. cbv iota. rewrite skip_escaped.
  assert (Sg : seg (34 :: escape_body t ++ [34]) [] = 34 :: escape_body t ++ [34]) by (unfold seg; rewrite Nat.sub_0_r; apply firstn_all).
  rewrite Sg. cbn [skip_to_name_end length Nat.ltb Nat.leb]. rewrite app_length. cbn [length]. rewrite Nat.add_1_r. cbn [skip_seps expand_loop]. rewrite bind_ret. cbn [seg].
  unfold ret. f_equal. cbn. now rewrite !app_nil_r.
Qed.
(** What is queued for the end of the second pass. *)
Definition echoed (s : st) (t : text) : poutput := mkpoutput (s_pc s) (s_line s) (s_curr_reus s - 1) (escape_string t) OUTPUT_ECHO (s_file s).
Definition printable (t : text) : Prop := Forall (fun c => 0 < c < 256 /\ c <> 10 /\ c <> 13) t.
Lemma dec_printable v : printable (dec v).
Proof.
  assert (D : forall f n acc, printable acc -> printable (dec_fuel f n acc)).
  { induction f as [|f IH]; intros n acc H; [exact H|]. cbn [dec_fuel]. pose proof (Z.mod_pos_bound n 10 ltac:(lia)).
    assert (H' : printable ((48 + n mod 10) :: acc)) by (constructor; [lia|exact H]). destruct (n / 10 =? 0); [exact H'|now apply IH]. }
  unfold dec, decmin. destruct (v <? 0); [constructor; [lia|]|]; apply D; constructor.
Qed.
Lemma says_printable C s d t : datum_ok (P := no_params) d -> says C s d t -> printable t.
Proof.
  destruct d as [w|b u a]; cbn [says datum_ok].
  - intros _ (v & _ & ->). apply dec_printable.
  - intros (_ & _ & F & _) ->. exact F.
Qed.
Lemma echo_queued : forall C n s word gap l ts after rest, (20 <= n)%nat -> word_of word (zs "echo") -> gap_ok gap -> line_over rest -> Forall UtilsSpec.blank after ->
  l <> [] -> open_only s -> Forall (datum_ok (P := no_params)) l -> Forall2 (says C s) l ts ->
  (exists c t, data_text l = c :: t /\ ~ UtilsSpec.blank c /\ c <> 62) -> (exists c t, data_text l = t ++ [c] /\ ~ UtilsSpec.blank c /\ c <> 10 /\ c <> 13) -> zlen (data_text l ++ after) <= 254 ->
  exists s', handle_directive C (knot C (S n)) (word ++ gap ++ data_text l ++ after ++ rest) s =
      Ok (Some rest) (set_outputs (s_outputs s ++ [echoed s (List.concat ts)]) s') /\ calm s s'.
Proof.
  intros C n s word gap l ts after rest Hn W G Ov Ba Nl Op F Sy (c1 & t1 & E1 & N1 & M1) (c2 & t2 & E2 & N2) Ln.
  assert (Hq : skip_ws (gap ++ data_text l ++ after ++ rest) = data_text l ++ after ++ rest).
  { rewrite skip_ws_app by apply G. rewrite E1. cbn [app]. now apply skip_ws_nonblank. }
  assert (Ed : handle_directive C (knot C (S n)) (word ++ gap ++ data_text l ++ after ++ rest) s =
    (let* ' p := dir_echo C (knot C (S n)) (data_text l ++ after ++ rest) in ret (Some p)) s).
  { dispatch. rewrite Hq. rewrite E1. cbn [app hd0]. replace (c1 =? 62) with false by lia. reflexivity. }
  clear Hq.
  destruct (data_pieces l F) as (b & Eb & Fb).
  assert (Rd : read_expr (data_text l ++ after ++ rest) [] s = Ok (mkrx true rest (data_text l) false) s).
  { pose proof (read_operand_gen [] (mkoperand [] b after) rest) as Q. unfold operand_text in Q. cbn [o_before o_body o_after app] in Q. rewrite Eb in Q.
    unfold read_expr, read_expr'. rewrite Q; [reflexivity|cbn; lia|right; cbn; easy| |right; now apply over_stops].
    unfold operand_okd, operand_text. cbn [o_before o_body o_after]. rewrite Eb. split; [constructor|]. split; [exact Ba|]. split; [exact Fb|]. split; [eauto|].
    split; [|rewrite zlen_app in Ln; exact Ln]. exists c2, t2. split; [exact E2|exact N2]. }
  set (s0 := set_sess (s_sess s + 1) s).
  assert (Op0 : open_only s0). { destruct Op as (O1 & O2). split; [cbn; lia|]. cbn. eapply Forall_impl; [|exact O2]. cbn. intros e. lia. }
  assert (Em : forall ty s1, is_data ty = false -> calm s0 s1 -> exists s', f_emit (knot C (S n)) (data_text l) ty s1 = 
    Ok ([], List.concat ts ++ match ty with E_STDOUT => if s_emitlev s1 =? 0 then [10] else [] | _ => [] end) s' /\ calm s0 s').
  { intros ty s1 Ty C1. destruct (emit_run C n s1 ty l ts [] Hn Ty (or_introl eq_refl) Nl (open_calm _ _ C1 Op0) F) as (s' & E & Cm).
    { revert Sy. assert (C1' : calm s0 s1) by exact C1. clear -C1'. induction 1; constructor; auto. now apply (says_calm C s0). }
    exists s'. split; [|now apply (calm_trans s0 s1)]. rewrite app_nil_r, E1, (skip_ws_nonblank c1 t1 N1), <- E1 in E. exact E. }
  destruct (Em E_NULL s0 eq_refl (or_introl eq_refl)) as (s1 & M1' & C1).
  assert (Er : s_errs s1 = s_errs s) by (destruct C1 as [->| ->]; reflexivity).
  destruct (above _ _ (proj2 Op)) as (Ld & Ul & _). destruct (Em E_FCREATE s1 eq_refl C1) as (s2 & M2 & C2).
  assert (Er2 : s_errs s2 = s_errs s) by (destruct C2 as [->| ->]; reflexivity).
  exists (set_sess (s_sess s) s2). split.
  2:{ destruct C2 as [->| ->]; [left|right]; unfold s0; now destruct s. }
  rewrite Ed. unfold dir_echo. rewrite !bind_assoc, (bind_ok _ _ _ _ _ Rd). cbn [rx_word rx_ptr]. unfold start_session. rewrite !bind_assoc, bind_get, !bind_assoc, bind_upd, bind_ret. fold s0.
  rewrite !bind_assoc, (bind_ok _ _ _ _ _ M1'), !bind_assoc, bind_get, Er.
  unfold sess_fatal, err_count. rewrite Ld. cbn [existsb filter]. change (0 <? zlen (@nil err)) with false. cbv iota.
  rewrite !bind_assoc, (bind_ok _ _ _ _ _ M2). rewrite app_nil_r.
  unfold add_pass_two_output. rewrite !bind_assoc, bind_get, !bind_assoc, bind_get. unfold get_curr_reusable. rewrite !bind_assoc, bind_get, bind_ret, !bind_assoc, bind_get.
  rewrite !bind_assoc, (bind_ok _ _ _ _ _ (expand_string C n (List.concat ts) s2)), ?bind_assoc, bind_get, ?bind_assoc, bind_upd, ?bind_assoc.
  unfold end_session. rewrite !bind_assoc, bind_get, !bind_assoc, bind_get. cbn [s_errs s_sess set_outputs]. rewrite Er2, Ul.
  rewrite !bind_assoc, bind_upd, !bind_assoc, bind_upd. replace (s_sess s + 1 =? 1) with false by (destruct Op; lia). cbn [andb]. rewrite bind_ret, bind_ret.
  unfold ret. f_equal. unfold echoed. assert (Ks : s_sess s2 - 1 = s_sess s) by (destruct C2 as [->| ->]; unfold s0; cbn; lia). rewrite Ks.
  destruct C2 as [->| ->]; unfold s0; now destruct s.
Qed.

(** At the end of the second pass the text is printed, followed by a line break. *)
Lemma echo_printed C n s t s2 : (20 <= n)%nat -> printable t -> zlen (escape_string t) <= 254 ->
  s_sess s2 = 0 -> s_errs s2 = [] -> s_emitlev s2 = 0 ->
  exists s3, second_pass_output C (knot C (S n)) (echoed s t) s2 = Ok tt s3 /\ s_stdout s3 = (t ++ [10]) :: s_stdout s2 /\
    s_exitc s3 = s_exitc s2 /\ s_printed s3 = s_printed s2 /\ s_errs s3 = [] /\ s_sess s3 = 0 /\ s_emitlev s3 = 0.
Proof.
  intros Hn Pt Ln S0 S1 S2. unfold second_pass_output, echoed. cbn [o_pc o_line o_file o_reus o_type o_expr].
  set (s4 := set_sess 1 (set_curr_reus (s_curr_reus s - 1 + 1) (set_file (s_file s) (set_line (s_line s) (set_pc (s_pc s) s2))))).
  destruct (emit_run C n s4 E_STDOUT [DStr [] t []] [t] [] Hn eq_refl (or_introl eq_refl) ltac:(discriminate)) as (s5 & E & Cm).
  { split; [cbn; lia|]. cbn. rewrite S1. constructor. }
  { constructor; [|constructor]. split; [constructor|]. split; [constructor|]. split; [exact Pt|]. rewrite lit_escape. change (zlen (@nil Z)) with 0. lia. }
  { constructor; [reflexivity|constructor]. }
  cbn [data_text datum_text app] in E. rewrite !app_nil_r, lit_escape in E. change (skip_ws (escape_string t)) with (escape_string t) in E.
  cbn [List.concat] in E. rewrite app_nil_r in E. change (s_emitlev s4) with (s_emitlev s2) in E. rewrite S2 in E. change (0 =? 0) with true in E. cbv iota in E.
  rewrite !bind_upd. unfold set_curr_reusable. rewrite bind_upd. unfold start_session. rewrite !bind_assoc, bind_get, !bind_assoc, bind_upd, bind_ret.
  cbn [s_sess set_curr_reus set_file set_line set_pc]. rewrite S0. change (0 + 1) with 1. fold s4. rewrite (bind_ok _ _ _ _ _ E).
  unfold print. rewrite !bind_assoc, bind_get, bind_upd. unfold replay_session. rewrite !bind_assoc, bind_get. change (1 =? 1) with true. cbv iota. rewrite !bind_assoc, bind_get, bind_upd.
  unfold end_session. rewrite bind_get, bind_get, bind_upd, bind_upd.
  assert (Q : s_errs s5 = [] /\ s_sess s5 = 1 /\ s_stdout s5 = s_stdout s2 /\ s_exitc s5 = s_exitc s2 /\ s_printed s5 = s_printed s2 /\ s_emitlev s5 = 0).
  { destruct Cm as [->| ->]; unfold s4; cbn; rewrite S1, S2; auto 10. }
  destruct Q as (Q1 & Q2 & Q3 & Q4 & Q5 & Q6). cbn [s_errs set_printed set_stdout s_sess s_printed]. rewrite Q1, Q2. cbn [lead existsb andb unlead].
  eexists. split; [reflexivity|]. cbn. rewrite Q3, Q4, Q5, Q6. split; [reflexivity|]. split; [reflexivity|]. split; [|auto]. destruct (c_counter C); [reflexivity|]. cbn. now rewrite app_nil_r.
Qed.
(** C62 *)
Theorem c62_echo_partial : forall C n s word gap l ts after rest, (20 <= n)%nat -> word_of word (zs "echo") -> gap_ok gap -> line_over rest -> Forall UtilsSpec.blank after ->
  l <> [] -> open_only s -> Forall (datum_ok (P := no_params)) l -> Forall2 (says C s) l ts ->
  (exists c t, data_text l = c :: t /\ ~ UtilsSpec.blank c /\ c <> 62) -> (exists c t, data_text l = t ++ [c] /\ ~ UtilsSpec.blank c /\ c <> 10 /\ c <> 13) ->
  zlen (data_text l ++ after) <= 254 -> zlen (escape_string (List.concat ts)) <= 254 ->
  exists s' o, handle_directive C (knot C (S n)) (word ++ gap ++ data_text l ++ after ++ rest) s = Ok (Some rest) (set_outputs (s_outputs s ++ [o]) s') /\ calm s s' /\
    forall s2, s_sess s2 = 0 -> s_errs s2 = [] -> s_emitlev s2 = 0 ->
    exists s3, second_pass_output C (knot C (S n)) o s2 = Ok tt s3 /\ s_stdout s3 = (List.concat ts ++ [10]) :: s_stdout s2 /\ s_exitc s3 = s_exitc s2 /\ s_printed s3 = s_printed s2.
Proof.
  intros C n s word gap l ts after rest Hn W G Ov Ba Nl Op F Sy H1 H2 Ln Lt.
  destruct (echo_queued C n s word gap l ts after rest Hn W G Ov Ba Nl Op F Sy H1 H2 Ln) as (s' & E & Cm).
  exists s', (echoed s (List.concat ts)). split; [exact E|]. split; [exact Cm|]. intros s2 S0 S1 S2.
  assert (Pt : printable (List.concat ts)).
  { clear -F Sy. induction Sy as [|d t l ts H Sy IH]; [constructor|]. inversion F; subst. cbn. apply Forall_app. split; [now apply (says_printable C s d)|now apply IH]. }
  destruct (echo_printed C n s _ s2 Hn Pt Lt S0 S1 S2) as (s3 & E3 & E4 & E5 & E6 & _). eauto 10.
Qed.
Example c62_case : let l := [DStr [] (zs "at ""lab""+") (zs " "); DNum (mkwritten [] c01_expr (zs "2+ $03 *- (%100-lab)") [])] in
  data_text l = zs """at \""lab\""+"" ,2+ $03 *- (%100-lab)" /\ Forall2 (says ex_conf ex_state) l [zs "at ""lab""+"; zs "25"] /\
  match main 100 (world_of [(zs "a.asm", prog ["lab = 9"; " .echo ""at \""lab\""+"" ,2+ $03 *- (%100-lab) ;"]%string)]) [zs "a.asm"; zs "a.bin"] with
  | Done 0 _ (Some s) => In (zs "at ""lab""+25" ++ [10]) (s_stdout s) | _ => False end.
Proof.
  split; [reflexivity|]. split; [|vm_compute; auto 10]. constructor; [reflexivity|]. constructor; [|constructor]. exists 25. split; [|reflexivity].
  destruct (ex_stands ex_conf eq_refl) as ((B1 & W & _ & N & _) & V). split; [|exact V]. split; [exact B1|]. split; [exact W|]. split; [constructor|]. split; [exact N|vm_compute; discriminate].
Qed.
Print Assumptions c62_echo_partial.
