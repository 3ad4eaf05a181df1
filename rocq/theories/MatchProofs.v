(** The instruction matcher selects the row that is written. *)
From Verif Require Import Base BaseProofs State UtilsModel ErrorsModel StorageModel ParserModel PassTwoModel PreopModel PassOneModel
  MonadProofs UtilsSpec UtilsProofs ParserProofs MatchSpec.

(** * Characters *)
Lemma lod_iff c : isalnum c = true <-> letter_or_digit c.
Proof. unfold isalnum, isalpha, isdigit, isupper, islower, letter_or_digit. lia. Qed.
Lemma alnumb_iff c : alnumb c = isalnum c.
Proof. unfold isalnum, isalpha, isdigit, isupper, islower, alnumb. lia. Qed.
Lemma nc_iff c : is_name_char c = true <-> name_char c.
Proof. unfold is_name_char, name_char. rewrite orb_true_iff, lod_iff, memb_In. simpl. reflexivity. Qed.
Lemma same_iff c d : tolower c =? tolower d = true <-> same_char c d.
Proof. unfold tolower, isupper, same_char. destruct (_ && _) eqn:E1, (65 <=? d) eqn:E2, (d <=? 90) eqn:E3; simpl; lia. Qed.
Lemma wild_iff c : is_arg c = true <-> wild c \/ c = 64.
Proof. unfold is_arg, wild. simpl. lia. Qed.

(** * Going to the next character of the pattern *)
Lemma next_is base p : (if negb (isalpha (prevc base p)) || negb (isalpha (hd0 p)) then skip_ws p else p) = skip_ws p.
Proof.
  destruct (negb (isalpha (prevc base p)) || negb (isalpha (hd0 p))) eqn:E; [reflexivity|].
  destruct p as [|c p]; [reflexivity|]. simpl hd0 in E. symmetry. apply skip_ws_nonblank. unfold isalpha, isupper, islower, blank in *. lia.
Qed.
Lemma prevc_app a x q : prevc (a ++ x :: q) q = x.
Proof.
  unfold prevc. rewrite app_length. cbn [length]. replace (Nat.ltb _ _) with true by (symmetry; apply Nat.ltb_lt; lia).
  rewrite app_nth2 by lia. replace (_ - _ - _ - _)%nat with 0%nat by lia. reflexivity.
Qed.

(** [match_pattern] and what [match_instr] does next. *)
Definition finish (r : text * text * list (text * text)) : M (text * option (list (text * text))) :=
  let '(pat, q, args) := r in
  let* ' (pat, args) :=
    (if hd0 pat =? 64 then
       if Nat.leb 3 (length args) then undef UB_oob else ret (tl pat, args ++ [(q, q)])
     else ret (pat, args)) in
  ret (q, match pat with [] => if is_eol q then Some args else None | _ => None end).
Definition gives (base pat p : text) (args : list (text * text)) (s : st) (q : text) (r : option (list (text * text))) : Prop :=
  bind (match_pattern base pat p args) finish s = Ok (q, r) s.
Definition fails (base pat p : text) (args : list (text * text)) (s : st) : Prop := exists q, gives base pat p args s q None.
Lemma match_instr_is base p i s : match_instr base p i s = bind (match_pattern base (i_args i) p []) finish s.
Proof. reflexivity. Qed.

(** Stopping with part of the pattern left. *)
Lemma stop_fails base pat p args s : match_pattern base pat p args s = Ok (pat, p, args) s ->
  match pat with
  | [] => is_eol p = false
  | c :: pat' => c = 64 -> (length args <= 2)%nat /\ (pat' <> [] \/ is_eol p = false)
  end -> fails base pat p args s.
Proof.
  intros E H. exists p. unfold gives. rewrite (bind_ok _ _ _ _ _ E). unfold finish. destruct pat as [|c pat'].
  - simpl. rewrite H. reflexivity.
  - cbn [hd0 tl]. destruct (Z.eqb_spec c 64) as [->|N].
    + destruct (H eq_refl) as (H1 & H2). replace (Nat.leb 3 (length args)) with false by (symmetry; apply Nat.leb_gt; lia). simpl.
      destruct pat' as [|d pat']; [|reflexivity]. destruct H2 as [H2| ->]; [congruence|reflexivity].
    + reflexivity.
Qed.
Lemma step_char base c pat x p args s : is_arg c = false -> is_eol (x :: p) = false -> tolower x =? tolower c = true ->
  match_pattern base (c :: pat) (x :: p) args s = match_pattern base pat (skip_ws p) args s.
Proof. intros A E T. cbn [match_pattern]. rewrite E, A. cbn [hd0 tl]. rewrite T. cbv zeta. now rewrite next_is. Qed.
Lemma gives_char base c pat x p args s q r : is_arg c = false -> is_eol (x :: p) = false -> tolower x =? tolower c = true ->
  gives base pat (skip_ws p) args s q r -> gives base (c :: pat) (x :: p) args s q r.
Proof. intros A E T H. unfold gives, bind in *. rewrite step_char by assumption. exact H. Qed.
Lemma stop_char base c pat x p args s : is_arg c = false -> is_eol (x :: p) = false -> tolower x =? tolower c = false ->
  fails base (c :: pat) (x :: p) args s.
Proof.
  intros A E T. apply stop_fails.
  - cbn [match_pattern]. rewrite E, A. cbn [hd0]. rewrite T. reflexivity.
  - intros ->. discriminate.
Qed.
Lemma stop_eol base c pat p args s : is_eol p = true -> (c = 64 -> (length args <= 2)%nat /\ pat <> []) ->
  fails base (c :: pat) p args s.
Proof.
  intros E H. apply stop_fails.
  - cbn [match_pattern]. now rewrite E.
  - intros K. destruct (H K). auto.
Qed.

(** * A word of the pattern against the beginning of an expression *)
Definition punct (c : Z) : bool := memb c [40; 41; 44; 39].
Lemma not_eol c p : isalnum c = true \/ is_name_char c = true \/ punct c = true -> is_eol (c :: p) = false.
Proof.
  intros H. unfold is_eol. destruct H as [H|[H|H]].
  - apply lod_iff in H. unfold letter_or_digit in H. lia.
  - apply nc_iff in H. destruct H as [H|H]; [unfold letter_or_digit in H; lia|simpl in H; lia].
  - unfold punct in H. apply memb_In in H. simpl in H. lia.
Qed.
Lemma alnum_arg c : isalnum c = true -> is_arg c = false.
Proof. intros H. apply lod_iff in H. unfold letter_or_digit in H. unfold is_arg. lia. Qed.
Lemma punct_arg c : punct c = true -> is_arg c = false.
Proof. unfold punct. intros H. apply memb_In in H. simpl in H. unfold is_arg. lia. Qed.
Lemma name_blank c : is_name_char c = true -> ~ blank c.
Proof. intros H. apply nc_iff in H. unfold blank. destruct H as [H|H]; [unfold letter_or_digit in H; lia|simpl in H; lia]. Qed.
Lemma word_fails base s args r : (length args <= 2)%nat ->
  match r with [] => True | d :: _ => d = 64 \/ punct d = true end ->
  forall w nm t, Forall (fun c => isalnum c = true) w -> Forall (fun c => is_name_char c = true) nm -> ~ same_word nm w ->
  (is_eol (skip_ws t) = true \/ exists c t', skip_ws t = c :: t' /\ isalnum c = false /\ is_eol (skip_ws t) = false) ->
  fails base (w ++ r) (skip_ws (nm ++ t)) args s.
Proof.
  intros Ha Hr. induction w as [|c w IH]; intros nm t Hw Hn Hd Ht.
  - destruct nm as [|x nm]; [exfalso; apply Hd; constructor|]. inversion Hn; subst. cbn [app].
    rewrite skip_ws_nonblank by now apply name_blank.
    assert (E : is_eol (x :: nm ++ t) = false) by (apply not_eol; auto).
    destruct r as [|d r]; [apply stop_fails; [reflexivity|exact E]|]. destruct Hr as [->|Hr].
    + apply stop_fails.
      * cbn [match_pattern]. rewrite E. cbn [hd0]. replace (is_arg 64) with true by reflexivity. cbv zeta. rewrite H1. reflexivity.
      * intros _. auto.
    + apply stop_char; [now apply punct_arg|exact E|]. unfold punct in Hr. apply memb_In in Hr. apply nc_iff in H1.
      destruct (tolower x =? tolower d) eqn:K; [|reflexivity]. apply same_iff in K.
      destruct H1 as [H1|H1]; [unfold letter_or_digit in H1|]; simpl in *; unfold same_char in K; lia.
  - inversion Hw as [|? ? Hc Hw']; subst. pose proof (alnum_arg c Hc) as A. destruct nm as [|x nm]; cbn [app].
    + destruct Ht as [Ht|(x & t' & E & Hx & Ht)].
      * apply stop_eol; [exact Ht|]. intros ->. discriminate.
      * rewrite E in Ht |- *. apply stop_char; auto. destruct (tolower x =? tolower c) eqn:K; [|reflexivity].
        apply same_iff in K. apply lod_iff in Hc. assert (isalnum x = true) by (apply lod_iff; unfold same_char, letter_or_digit in *; lia). congruence.
    + inversion Hn as [|? ? Hx Hn']; subst. rewrite skip_ws_nonblank by now apply name_blank.
      assert (E : is_eol (x :: nm ++ t) = false) by (apply not_eol; auto).
      destruct (tolower x =? tolower c) eqn:K; [|now apply stop_char].
      assert (F : fails base (w ++ r) (skip_ws (nm ++ t)) args s).
      { apply IH; auto. intros G. apply Hd. constructor; [now apply same_iff|exact G]. }
      destruct F as (q & F). exists q. now apply gives_char.
Qed.

(** * Reading an expression that consists of complete pieces *)
Lemma blank_piece c : blank c -> piece_ok [44] true (PChar c).
Proof. intros H. constructor; unfold bracket, blank in *; [lia|]. intros _. simpl. unfold line_ender. lia. Qed.
Lemma piece_weak d q : piece_ok d true q -> piece_ok d false q.
Proof. intros H. inversion H; subst; constructor; auto; discriminate. Qed.
Lemma map_pchar b : pieces_text (map PChar b) = b.
Proof. induction b; simpl; [reflexivity|now f_equal]. Qed.
Lemma pieces_app a b : pieces_text (a ++ b) = pieces_text a ++ pieces_text b.
Proof. apply flat_map_app. Qed.
Lemma last_not_comma ps : Forall (piece_ok [44] true) ps -> ps <> [] -> exists t c, pieces_text ps = t ++ [c] /\ c <> 44.
Proof.
  intros H N. destruct (exists_last N) as (l & q & ->). apply Forall_app in H as (_ & H). inversion H as [|? ? Hq _]; subst.
  rewrite pieces_app. unfold pieces_text at 2. cbn [flat_map]. rewrite app_nil_r.
  assert (K : exists t c, piece_text q = t ++ [c] /\ c <> 44).
  { inversion Hq; subst.
    - exists [], c. split; [reflexivity|]. destruct H1 as (H1 & _); [reflexivity|]. simpl in H1. lia.
    - exists (34 :: flat_map sitem_text l0), 34. split; [reflexivity|lia].
    - exists [39; c], 39. split; [reflexivity|lia].
    - exists [39; 92; c], 39. split; [reflexivity|lia].
    - exists (40 :: flat_map piece_text l0), 41. split; [reflexivity|lia]. }
  destruct K as (t & c & -> & Hc). exists (pieces_text l ++ t), c. split; [apply app_assoc|exact Hc].
Qed.
Definition ended (rest : text) : Prop := (exists t, rest = 44 :: t) \/ stops_list rest.
Lemma read_run ps rest s : Forall (piece_ok [44] true) ps -> (exists c t, pieces_text ps = c :: t /\ ~ blank c) ->
  zlen (pieces_text ps) <= 254 -> ended rest ->
  exists w, read_expr (pieces_text ps ++ rest) [44] s = Ok (mkrx true rest w false) s.
Proof.
  intros Hp (c & t & E & Hc) Hl Hr.
  unfold read_expr, read_expr', read_expr_gen.
  assert (Hsk : skip_ws (pieces_text ps ++ rest) = pieces_text ps ++ rest) by (rewrite E; cbn [app]; now apply skip_ws_nonblank).
  rewrite Hsk. set (body := pieces_text ps ++ rest).
  assert (Hne : is_eol body || (hd0 body =? 41) = false).
  { unfold body. rewrite E. cbn [app]. destruct ps as [|q l]; [discriminate|].
    inversion Hp as [|? ? Hq _]; subst. unfold pieces_text in E. cbn [flat_map] in E.
    assert (Hc41 : ~ line_ender c /\ c <> 41).
    { inversion Hq; subst; cbn [piece_text app] in E; injection E; intros; subst; unfold line_ender, bracket in *; try lia. }
    destruct Hc41 as [H1 H2]. rewrite (is_eol_not c _ H1). simpl. lia. }
  rewrite Hne.
  assert (Hf : exists f, (3 * length body + 5 = length (pieces_text ps) + f /\ 0 < f)%nat).
  { exists (3 * length body + 5 - length (pieces_text ps))%nat. unfold body. rewrite !app_length. lia. }
  destruct Hf as (f & -> & Hf).
  assert (Hd : ~ In 34 [44] /\ ~ In 39 [44] /\ ~ In 40 [44]) by (simpl; lia).
  pose proof (reach_pieces [44] Hd ps true 0 [] rest Hp eq_refl ltac:(rewrite zlen_nil; lia)) as Hreach. fold body in Hreach.
  destruct (Hreach f body body) as (p2' & p1' & ->).
  rewrite (read_stop [44]); [|destruct Hr as [(t' & ->)|Hr]; [left; right; exists 44, t'; simpl; auto|right; exact Hr]|assumption].
  eexists. reflexivity.
Qed.

Lemma step_arg base before ps rest c pat args s : base = before ++ pieces_text ps ++ rest ->
  Forall (piece_ok [44] true) ps -> (exists x t, pieces_text ps = x :: t /\ ~ blank x) ->
  zlen (pieces_text ps) <= 254 -> ended rest -> is_arg c = true -> (length args <= 2)%nat ->
  (c = 64 -> is_name_char (hd0 (pieces_text ps)) = false) ->
  match_pattern base (c :: pat) (pieces_text ps ++ rest) args s =
  match_pattern base pat (skip_ws rest) (args ++ [(pieces_text ps ++ rest, rest)]) s.
Proof.
  intros Eb Hp Hc Hl Hr A Ha Hi. destruct (read_run ps rest s Hp Hc Hl Hr) as (w & Rd).
  destruct (last_not_comma ps Hp) as (t & x & Ex & Nx). { intros ->. destruct Hc as (x & t & E & _). discriminate. }
  destruct Hc as (y & ty & Ey & Ny).
  assert (E : is_eol (pieces_text ps ++ rest) = false).
  { rewrite Ey. cbn [app]. destruct ps as [|q l]; [discriminate|]. inversion Hp as [|? ? Hq _]; subst. unfold pieces_text in Ey. cbn [flat_map] in Ey.
    apply is_eol_not. inversion Hq; subst; cbn [piece_text app] in Ey; injection Ey; intros; subst; unfold line_ender, bracket in *; try lia. }
  cbn [match_pattern]. rewrite E, A. cbv zeta.
  assert (B : (c =? 64) && is_name_char (hd0 (pieces_text ps ++ rest)) = false).
  { destruct (Z.eqb_spec c 64) as [K|K]; [|reflexivity]. rewrite Ey in Hi |- *. cbn [app hd0] in *. now apply Hi. }
  rewrite B. replace (Nat.leb 3 (length args)) with false by (symmetry; apply Nat.leb_gt; lia).
  rewrite (bind_ok _ _ _ _ _ Rd). cbn [rx_ptr].
  assert (Pv : prevc base rest =? 44 = false).
  { rewrite Eb, Ex, <- app_assoc. cbn [app]. rewrite app_assoc, prevc_app. lia. }
  rewrite Pv, next_is. reflexivity.
Qed.
Lemma step_no_index base before x pat t args s : base = before ++ x :: 41 :: t -> x <> 44 -> (length args <= 2)%nat ->
  match_pattern base (64 :: pat) (41 :: t) args s = match_pattern base pat (41 :: t) (args ++ [(41 :: t, 41 :: t)]) s.
Proof.
  intros Eb Nx Ha. cbn [match_pattern]. replace (is_eol (41 :: t)) with false by reflexivity. replace (is_arg 64) with true by reflexivity. cbv zeta.
  cbn [hd0]. replace ((64 =? 64) && is_name_char 41) with false by reflexivity.
  replace (Nat.leb 3 (length args)) with false by (symmetry; apply Nat.leb_gt; lia).
  assert (Rd : read_expr (41 :: t) [44] s = Ok (mkrx false (41 :: t) [] false) s) by reflexivity.
  change (zs ",") with [44]. rewrite (bind_ok _ _ _ _ _ Rd). cbn [rx_ptr].
  rewrite Eb, prevc_app. replace (x =? 44) with false by lia. rewrite next_is. reflexivity.
Qed.

(** * Fields *)
Section Field.
Variable o : opcode.
Definition char_ok (c : Z) : Prop := isalnum c = true \/ punct c = true.
Definition witem_ok (w : item * text) : Prop :=
  Forall blank (snd w) /\ match fst w with IChar c => char_ok c | i => item_ok o i end.
Definition field_ok (ws : field) : Prop := Forall witem_ok ws.
Lemma wtext_cons w ws : wtext (w :: ws) = item_text (fst w) ++ snd w ++ wtext ws.
Proof. unfold wtext. cbn [flat_map]. now rewrite app_assoc. Qed.
Lemma wtext_app a b : wtext (a ++ b) = wtext a ++ wtext b.
Proof. apply flat_map_app. Qed.

(** The first character of an item. *)
Lemma item_head w : witem_ok w -> exists c t, item_text (fst w) = c :: t /\ ~ blank c /\ is_eol (c :: t) = false /\
  match fst w with IChar d => c = d | IPlain _ => c <> 40 /\ c <> 41 /\ c <> 44 | IIndex _ => c = 43 \/ c = 45 end.
Proof.
  intros (_ & H). destruct (fst w) as [c|l|l]; cbn [item_text].
  - exists c, []. split; [reflexivity|]. split; [|split; [|reflexivity]].
    + destruct H as [H|H]; [apply name_blank; unfold is_name_char; now rewrite H|]. unfold punct in H. apply memb_In in H. unfold blank. simpl in H. lia.
    + apply not_eol. destruct H; auto.
  - destruct H as (Hp & _ & (w' & b & r & E & Hw & Hb & _ & Hn & Hwb & Hr)).
    assert (X : exists c t, pieces_text l = c :: t /\ ~ blank c /\ c <> 40).
    { destruct w' as [|c w'].
      - rewrite (Hwb eq_refl) in E. destruct Hr as [->|(c & t & -> & Hr)]; [now elim Hn|]. exists c, t. split; [exact E|]. tauto.
      - exists c, (w' ++ b ++ r). split; [exact E|]. inversion Hw; subst. split; [now apply name_blank, nc_iff|].
        destruct H1 as [H1|H1]; [unfold letter_or_digit in H1; lia|simpl in H1; lia]. }
    destruct X as (c & t & Ec & Nb & N40). exists c, t. split; [exact Ec|]. split; [exact Nb|].
    destruct l as [|q l]; [discriminate|]. inversion Hp as [|? ? Hq _]; subst. unfold pieces_text in Ec. cbn [flat_map] in Ec.
    assert (K : ~ line_ender c /\ c <> 41 /\ c <> 44).
    { inversion Hq; subst; cbn [piece_text app] in Ec; injection Ec; intros; subst; unfold line_ender, bracket in *; try lia.
      destruct H0 as (H0 & H1); [reflexivity|]. simpl in H0. lia. }
    split; [now apply is_eol_not|]. tauto.
  - destruct H as (Hp & _ & (c & t & E & Hc)). exists c, t. split; [exact E|]. unfold blank. split; [lia|]. split; [unfold is_eol; lia|exact Hc].
Qed.
Lemma item_last w : witem_ok w -> exists t c, item_text (fst w) ++ snd w = t ++ [c] /\
  (match fst w with IChar d => d <> 44 | _ => True end -> c <> 44).
Proof.
  destruct w as [i b]. intros (Hb & H). cbn [fst snd] in *. destruct b as [|b0 b _] using rev_ind.
  - rewrite app_nil_r. destruct i as [c|l|l]; cbn [item_text].
    + exists [], c. auto.
    + destruct H as (Hp & (t & c & E & Hc) & _). destruct (last_not_comma l Hp) as (t' & c' & E' & H'); [intros ->; destruct t; discriminate|].
      exists t', c'. auto.
    + destruct H as (Hp & (t & c & E & Hc) & _). destruct (last_not_comma l Hp) as (t' & c' & E' & H'); [intros ->; destruct t; discriminate|].
      exists t', c'. auto.
  - exists (item_text i ++ b), b0. split; [apply app_assoc|]. intros _.
    apply Forall_app in Hb as (_ & Hb). inversion Hb; subst. unfold blank in *. lia.
Qed.
Lemma field_skip ws rest : field_ok ws -> line_over rest -> skip_ws (wtext ws ++ rest) = wtext ws ++ rest.
Proof.
  intros H Hr. destruct ws as [|w ws].
  - simpl. destruct Hr as [->|(c & t & -> & Hc)]; [reflexivity|]. apply skip_ws_nonblank. unfold line_ender, blank in *. lia.
  - inversion H as [|? ? Hw _]; subst. destruct (item_head w Hw) as (c & t & E & Nb & _). rewrite wtext_cons, E. cbn [app]. now apply skip_ws_nonblank.
Qed.
Lemma field_eol ws rest : field_ok ws -> line_over rest -> is_eol (wtext ws ++ rest) = match ws with [] => true | _ => false end.
Proof.
  intros H Hr. destruct ws as [|w ws].
  - simpl. destruct Hr as [->|(c & t & -> & Hc)]; [reflexivity|]. now apply is_eol_cons.
  - inversion H as [|? ? Hw _]; subst. destruct (item_head w Hw) as (c & t & E & _ & Ne & _). rewrite wtext_cons, E. exact Ne.
Qed.

(** * A row matches the field that writes it *)
Fixpoint pat_ok (prev : Z) (pat : text) : bool :=
  match pat with
  | [] => true
  | c :: p =>
    (if is_arg c then
       (match p with [] => true | d :: _ => (d =? 41) || ((d =? 44) && negb (c =? 64)) end) && ((negb (c =? 64)) || isalnum prev)
     else isalnum c || punct c) && pat_ok c p
  end.
Lemma sig_app ws b rest : Forall blank b -> field_ok ws -> line_over rest -> skip_ws (b ++ wtext ws ++ rest) = wtext ws ++ rest.
Proof. intros. rewrite skip_ws_app by assumption. now apply field_skip. Qed.
Lemma blanks_ok b : Forall blank b -> Forall (piece_ok [44] true) (map PChar b).
Proof. intros H. apply Forall_map. eapply Forall_impl; [|exact H]. intros. now apply blank_piece. Qed.
Lemma over_ended rest : line_over rest -> ended rest.
Proof. intros [->|(c & t & -> & H)]; right; [now left|right; eauto]. Qed.
Lemma next_ended pat ws ops rest : spells pat ws ops -> line_over rest ->
  match pat with [] => True | d :: _ => d = 41 \/ d = 44 end -> ended (wtext ws ++ rest).
Proof.
  intros H Hr Hd. destruct pat as [|d pat]; [inversion H; subst; now apply over_ended|].
  inversion H; subst; try (unfold wild in *; simpl in *; lia); try (change (ch "@") with 64 in Hd; lia).
  rewrite wtext_cons. cbn [fst snd item_text app].
  match goal with K : same_char ?x d |- _ => assert (x = d) by (unfold same_char in K; lia); subst end.
  destruct Hd as [->| ->]; [right; right; eexists _, _; split; [reflexivity|]; now right|left; eexists; reflexivity].
Qed.
Lemma own rest s : line_over rest -> forall pat ws ops, spells pat ws ops -> forall prev, pat_ok prev pat = true -> field_ok ws ->
  forall base before args, base = before ++ wtext ws ++ rest ->
  (isalnum prev = true -> exists b x, before = b ++ [x] /\ x <> 44) -> zlen (wtext ws) <= 254 ->
  (length args + length ops <= 3)%nat ->
  exists args', gives base pat (wtext ws ++ rest) args s rest (Some (args ++ args')) /\
    map (fun a => seg (fst a) (snd a)) args' = ops.
Proof.
  intros Hr. induction 1 as [|c c' b pat ws ops Nw N64 Hc Hb Hs IH|c l b pat ws ops Hw Hb Hs IH|l b pat ws ops Hb Hs IH|pat ws ops Hs IH];
    intros prev Hpat Hf base before args Eb Hprev Hlen Hn.
  - exists []. split; [|reflexivity]. unfold gives, bind. cbn. rewrite app_nil_r. pose proof (field_eol [] rest Hf Hr) as E. cbn in E. rewrite E. reflexivity.
  - inversion Hf as [|? ? Hw Hf']; subst. cbn [pat_ok] in Hpat. apply andb_true_iff in Hpat as (P1 & P2).
    assert (A : is_arg c = false).
    { destruct (is_arg c) eqn:E; [|reflexivity]. apply wild_iff in E. destruct E; [contradiction|]. change (ch "@") with 64 in N64. lia. }
    rewrite wtext_cons in *. cbn [fst snd item_text] in *. rewrite <- !app_assoc in *. cbn [app] in *.
    destruct (item_head _ Hw) as (h & t & E1 & _ & E2 & _). cbn [fst item_text] in E1. injection E1 as <- <-.
    rewrite zlen_cons, zlen_app in Hlen. pose proof (zlen_nonneg b).
    destruct (IH c P2 Hf' (before ++ c' :: b ++ wtext ws ++ rest) (before ++ c' :: b) args) as (args' & G1 & G2); try lia.
    + now rewrite <- app_assoc.
    + intros Hal. destruct (item_last _ Hw) as (t & x & Ex & Nx). cbn [fst snd item_text app] in *. rewrite Ex.
      exists (before ++ t), x. split; [apply app_assoc|]. apply Nx. apply lod_iff in Hal. unfold same_char, letter_or_digit in *. lia.
    + exists args'. split; [|exact G2]. apply gives_char; [exact A|exact E2| |].
      * now apply same_iff.
      * now rewrite sig_app.
  - inversion Hf as [|? ? Hwi Hf']; subst. cbn [pat_ok] in Hpat. apply andb_true_iff in Hpat as (P1 & P2).
    assert (A : is_arg c = true) by (apply wild_iff; now left). rewrite A in P1.
    assert (C64 : c <> 64) by (unfold wild in Hw; simpl in Hw; lia). replace (c =? 64) with false in P1 by lia.
    assert (Ed : ended (wtext ws ++ rest)). { eapply next_ended; eauto. destruct pat as [|d pat]; [exact I|]. lia. }
    destruct (item_head _ Hwi) as (h & t & E1 & Nb & _). destruct Hwi as (_ & (Hpc & _)). cbn [fst snd item_text] in *.
    rewrite wtext_cons in *. cbn [fst snd item_text] in *.
    assert (T : pieces_text (l ++ map PChar b) = pieces_text l ++ b) by now rewrite pieces_app, map_pchar.
    destruct (IH c P2 Hf' (before ++ (pieces_text l ++ b ++ wtext ws) ++ rest) (before ++ pieces_text l ++ b) (args ++ [(pieces_text l ++ b ++ wtext ws ++ rest, wtext ws ++ rest)])) as (args' & G1 & G2).
    + now rewrite <- !app_assoc.
    + intros Hal. apply lod_iff in Hal. unfold wild, letter_or_digit in *. simpl in Hw. lia.
    + rewrite !zlen_app in Hlen. pose proof (zlen_nonneg b). pose proof (zlen_nonneg (pieces_text l)). lia.
    + rewrite app_length. cbn [length] in *. lia.
    + exists ((pieces_text l ++ b ++ wtext ws ++ rest, wtext ws ++ rest) :: args'). split.
      * replace ((pieces_text l ++ b ++ wtext ws) ++ rest) with (pieces_text (l ++ map PChar b) ++ wtext ws ++ rest) in *
          by (rewrite T, <- !app_assoc; reflexivity).
        unfold gives, bind. rewrite (step_arg _ before) with (s := s); auto.
        -- rewrite field_skip by assumption. rewrite <- app_assoc in G1. unfold gives, bind in G1.
           replace (pieces_text (l ++ map PChar b) ++ wtext ws ++ rest) with (pieces_text l ++ b ++ wtext ws ++ rest) at 2 by (rewrite T, <- !app_assoc; reflexivity).
           exact G1.
        -- apply Forall_app. split; [exact Hpc|now apply blanks_ok].
        -- exists h, (t ++ b). rewrite T, E1. auto.
        -- rewrite T. rewrite !zlen_app in *. pose proof (zlen_nonneg (wtext ws)). lia.
        -- cbn [length] in Hn. lia.
        -- lia.
      * cbn [map fst snd]. f_equal; [|exact G2]. rewrite app_assoc. apply seg_app.
  - inversion Hf as [|? ? Hwi Hf']; subst. change (ch "@") with 64 in *. cbn [pat_ok] in Hpat. apply andb_true_iff in Hpat as (P1 & P2).
    assert (A : is_arg 64 = true) by reflexivity. rewrite A in P1. replace (64 =? 64) with true in P1 by reflexivity.
    assert (Ed : ended (wtext ws ++ rest)). { eapply next_ended; eauto. destruct pat as [|d pat]; [exact I|]. lia. }
    destruct (item_head _ Hwi) as (h & t & E1 & Nb & _ & Hh). destruct Hwi as (_ & (Hpc & _)). cbn [fst snd item_text] in *.
    rewrite wtext_cons in *. cbn [fst snd item_text] in *.
    assert (T : pieces_text (l ++ map PChar b) = pieces_text l ++ b) by now rewrite pieces_app, map_pchar.
    destruct (IH 64 P2 Hf' (before ++ (pieces_text l ++ b ++ wtext ws) ++ rest) (before ++ pieces_text l ++ b) (args ++ [(pieces_text l ++ b ++ wtext ws ++ rest, wtext ws ++ rest)])) as (args' & G1 & G2).
    + now rewrite <- !app_assoc.
    + discriminate.
    + rewrite !zlen_app in Hlen. pose proof (zlen_nonneg b). pose proof (zlen_nonneg (pieces_text l)). lia.
    + rewrite app_length. cbn [length] in *. lia.
    + exists ((pieces_text l ++ b ++ wtext ws ++ rest, wtext ws ++ rest) :: args'). split.
      * replace ((pieces_text l ++ b ++ wtext ws) ++ rest) with (pieces_text (l ++ map PChar b) ++ wtext ws ++ rest) in *
          by (rewrite T, <- !app_assoc; reflexivity).
        unfold gives, bind. rewrite (step_arg _ before) with (s := s); auto.
        -- rewrite field_skip by assumption. rewrite <- app_assoc in G1. unfold gives, bind in G1.
           replace (pieces_text (l ++ map PChar b) ++ wtext ws ++ rest) with (pieces_text l ++ b ++ wtext ws ++ rest) at 2 by (rewrite T, <- !app_assoc; reflexivity).
           exact G1.
        -- apply Forall_app. split; [exact Hpc|now apply blanks_ok].
        -- exists h, (t ++ b). rewrite T, E1. auto.
        -- rewrite T. rewrite !zlen_app in *. pose proof (zlen_nonneg (wtext ws)). lia.
        -- cbn [length] in Hn. lia.
        -- intros _. rewrite T, E1. cbn [app hd0]. destruct Hh as [->| ->]; reflexivity.
      * cbn [map fst snd]. f_equal; [|exact G2]. rewrite app_assoc. apply seg_app.
  - change (ch "@") with 64 in *. cbn [pat_ok] in Hpat. apply andb_true_iff in Hpat as (P1 & P2).
    assert (A : is_arg 64 = true) by reflexivity. rewrite A in P1. replace (64 =? 64) with true in P1 by reflexivity. cbn [negb orb] in P1. rewrite andb_false_r, orb_false_r in P1 || idtac.
    apply andb_true_iff in P1 as (P1 & P3). cbn [length] in Hn.
    assert (L : Nat.leb 3 (length args) = false) by (apply Nat.leb_gt; lia).
    destruct pat as [|d pat].
    + inversion Hs; subst. exists [(rest, rest)]. split; [|cbn; f_equal; exact (seg_app [] rest)].
      pose proof (field_eol [] rest Hf Hr) as E. cbn [wtext flat_map app] in *. unfold gives, bind. cbn [match_pattern]. rewrite E. cbn [ret finish hd0 tl].
      replace (64 =? 64) with true by reflexivity. rewrite L. cbn. now rewrite E.
    + assert (d = 41) by lia. subst d. inversion Hs; subst; try (unfold wild in *; simpl in *; lia).
      match goal with K : same_char ?x 41 |- _ => assert (x = 41) by (unfold same_char in K; lia); subst end.
      destruct (Hprev P3) as (b' & x & -> & Nx).
      destruct (IH 64 P2 Hf ((b' ++ [x]) ++ wtext ((IChar 41, b) :: ws0) ++ rest) (b' ++ [x]) (args ++ [(wtext ((IChar 41, b) :: ws0) ++ rest, wtext ((IChar 41, b) :: ws0) ++ rest)]))
        as (args' & G1 & G2); auto; try (intros K; vm_compute in K; discriminate K); try (rewrite app_length; cbn [length]; lia).
      exists ((wtext ((IChar 41, b) :: ws0) ++ rest, wtext ((IChar 41, b) :: ws0) ++ rest) :: args'). split.
      * set (p := wtext ((IChar 41, b) :: ws0) ++ rest) in *. assert (Ep : p = 41 :: b ++ wtext ws0 ++ rest).
        { unfold p. rewrite wtext_cons. cbn [fst snd item_text app]. now rewrite <- app_assoc. }
        rewrite Ep in *. unfold gives, bind in *. rewrite (step_no_index _ b' x) with (s := s); [|now rewrite <- app_assoc|exact Nx|lia].
        rewrite <- (app_assoc args) in G1. exact G1.
      * cbn [map fst snd]. f_equal; [|exact G2]. exact (seg_app [] _).
Qed.

(** * A row that surely does not match *)
Inductive stok := SL (c : Z) | SP | SI.
Definition abs1 (w : item * text) (t : stok) : Prop :=
  match fst w, t with IChar c', SL c => same_char c' c | IPlain _, SP => True | IIndex _, SI => True | _, _ => False end.
Definition abs : field -> list stok -> Prop := Forall2 abs1.
Fixpoint split_expr (level : nat) (t : list stok) : option (list stok) :=
  match t with
  | [] => match level with O => Some [] | _ => None end
  | SL c :: t' =>
    if c =? 44 then match level with O => Some t | _ => None end
    else if c =? 40 then split_expr (S level) t'
    else if c =? 41 then match level with O => Some t | S l => split_expr l t' end
    else if isalnum c then split_expr level t' else None
  | _ :: t' => split_expr level t'
  end.
Fixpoint clo (k : nat) (txt : text) : Prop :=
  match k with
  | O => exists ps, Forall (piece_ok [44] true) ps /\ txt = pieces_text ps
  | S k => exists ps txt', Forall (piece_ok [44] false) ps /\ txt = pieces_text ps ++ 41 :: txt' /\ clo k txt'
  end.
Lemma clo_pieces k : forall ps txt, Forall (piece_ok [44] true) ps -> clo k txt -> clo k (pieces_text ps ++ txt).
Proof.
  destruct k as [|k]; intros ps txt Hp H; cbn [clo] in *.
  - destruct H as (qs & Hq & ->). exists (ps ++ qs). split; [now apply Forall_app|]. now rewrite pieces_app.
  - destruct H as (qs & txt' & Hq & -> & H). exists (ps ++ qs), txt'. split; [|split; [|exact H]].
    + apply Forall_app. split; [|exact Hq]. eapply Forall_impl; [|exact Hp]. intros. now apply piece_weak.
    + now rewrite pieces_app, app_assoc.
Qed.
Lemma clo_blanks k b txt : Forall blank b -> clo k txt -> clo k (b ++ txt).
Proof. intros Hb H. rewrite <- (map_pchar b). apply clo_pieces; [now apply blanks_ok|exact H]. Qed.
Lemma clo_char k c txt : isalnum c = true -> clo k txt -> clo k (c :: txt).
Proof.
  intros Hc H. apply lod_iff in Hc. change (c :: txt) with (pieces_text [PChar c] ++ txt). apply clo_pieces; [|exact H]. constructor; [|constructor].
  unfold letter_or_digit in Hc. constructor; [unfold bracket; lia|]. intros _. split; [simpl; lia|unfold line_ender; lia].
Qed.
Lemma clo_open k txt : clo (S k) txt -> clo k (40 :: txt).
Proof.
  intros (ps & txt' & Hp & -> & H). replace (40 :: pieces_text ps ++ 41 :: txt') with (pieces_text [PGroup ps] ++ txt').
  - apply clo_pieces; [|exact H]. constructor; [|constructor]. now constructor.
  - unfold pieces_text at 1. cbn [flat_map piece_text]. rewrite app_nil_r. cbn [app]. now rewrite <- app_assoc.
Qed.
Lemma item_pieces w : witem_ok w -> match fst w with IChar _ => True | IPlain l | IIndex l => Forall (piece_ok [44] true) l end.
Proof. intros (_ & H). destruct (fst w); [exact I| |]; apply H. Qed.
Lemma split_sound rest : line_over rest -> forall t k u ws, split_expr k t = Some u -> abs ws t -> field_ok ws ->
  exists run ws', ws = run ++ ws' /\ abs ws' u /\ clo k (wtext run) /\ ended (wtext ws' ++ rest) /\
    (length u <= length t)%nat.
Proof.
  intros Hr. induction t as [|x t IH]; intros k u ws H Ha Hf; cbn [split_expr] in H.
  - destruct k; [|discriminate]. injection H as <-. inversion Ha; subst. exists [], []. split; [reflexivity|]. split; [constructor|].
    split; [exists []; split; [constructor|reflexivity]|]. split; [now apply over_ended|simpl; lia].
  - inversion Ha as [|w ? ws1 ? Hx Ha']; subst. inversion Hf as [|? ? Hw Hf']; subst.
    assert (Next : forall k', split_expr k' t = Some u -> (forall txt, clo k' txt -> clo k (item_text (fst w) ++ snd w ++ txt)) ->
       exists run ws', w :: ws1 = run ++ ws' /\ abs ws' u /\ clo k (wtext run) /\ ended (wtext ws' ++ rest) /\ (length u <= length (x :: t))%nat).
    { intros k' E Hclo. destruct (IH _ _ _ E Ha' Hf') as (run & ws' & -> & A1 & A2 & A3 & A4). exists (w :: run), ws'.
      split; [reflexivity|]. split; [exact A1|]. split; [rewrite wtext_cons; now apply Hclo|]. split; [exact A3|]. cbn [length]. lia. }
    assert (Stop : k = O -> (exists c, (c = 44 \/ c = 41) /\ fst w = IChar c) -> Some (x :: t) = Some u ->
       exists run ws', w :: ws1 = run ++ ws' /\ abs ws' u /\ clo k (wtext run) /\ ended (wtext ws' ++ rest) /\ (length u <= length (x :: t))%nat).
    { intros -> (c & Hc & Ec) [= <-]. exists [], (w :: ws1). split; [reflexivity|]. split; [exact Ha|].
      split; [exists []; split; [constructor|reflexivity]|]. split; [|lia]. rewrite wtext_cons, Ec. cbn [item_text app].
      destruct Hc as [->| ->]; [left; eauto|right; right; eexists _, _; split; [reflexivity|]; now right]. }
    destruct Hw as (Hb & Hi). unfold abs1 in Hx. destruct w as [i b]. cbn [fst snd] in *. destruct x as [c| |].
    + destruct i as [c'|l|l]; try contradiction. cbn [item_text app] in *. unfold same_char in Hx.
      destruct (Z.eqb_spec c 44) as [->|N1]. { destruct k; [|discriminate]. apply Stop; auto. exists c'. split; [lia|reflexivity]. }
      destruct (Z.eqb_spec c 40) as [->|N2].
      { assert (c' = 40) by lia. subst. apply (Next (S k)); auto. intros txt Ht. apply clo_open. now apply clo_blanks. }
      destruct (Z.eqb_spec c 41) as [->|N3].
      { assert (c' = 41) by lia. subst. destruct k as [|k]; [apply Stop; eauto|]. apply (Next k); auto. intros txt Ht.
        exists [], (b ++ txt). split; [constructor|]. split; [reflexivity|]. now apply clo_blanks. }
      destruct (isalnum c) eqn:E; [|discriminate]. apply (Next k); auto. intros txt Ht. apply clo_char; [|now apply clo_blanks].
      apply lod_iff. apply lod_iff in E. unfold letter_or_digit in *. lia.
    + destruct i as [c'|l|l]; try contradiction. cbn [item_text] in *. apply (Next k); auto. intros txt Ht.
      apply clo_pieces; [apply Hi|now apply clo_blanks].
    + destruct i as [c'|l|l]; try contradiction. cbn [item_text] in *. apply (Next k); auto. intros txt Ht.
      apply clo_pieces; [apply Hi|now apply clo_blanks].
Qed.

Fixpoint word (pat : text) : text := match pat with c :: p => if isalnum c then c :: word p else [] | [] => [] end.
Fixpoint aword (pat : text) : text := match pat with c :: p => if isalnum c then aword p else pat | [] => [] end.
Lemma word_aword pat : word pat ++ aword pat = pat.
Proof. induction pat as [|c p IH]; [reflexivity|]. simpl. destruct (isalnum c); simpl; congruence. Qed.
Lemma word_alnum pat : Forall (fun c => isalnum c = true) (word pat).
Proof. induction pat as [|c p IH]; [constructor|]. simpl. destruct (isalnum c) eqn:E; constructor; auto. Qed.
Definition reserved_of : list text := concat (map (fun i => map (map tolower) (words [] (i_args i))) (op_instrs o)).
Fixpoint sym_no (prevok : bool) (pat : text) (t : list stok) (n : nat) : bool :=
  match pat with
  | [] => match t with [] => false | _ => true end
  | c :: pat' =>
    match t with
    | [] => negb (c =? 64) || (Nat.leb n 2 && match pat' with [] => false | _ => true end)
    | x :: t' =>
      if is_arg c then
        Nat.leb n 2 &&
        match x with
        | SL d =>
          if c =? 64 then is_name_char d || ((d =? 41) && prevok && sym_no false pat' t (S n))
          else negb (d =? 41) && negb (d =? 44) &&
               match split_expr 0 t with Some u => sym_no false pat' u (S n) | None => false end
        | SP => negb (c =? 64) && match split_expr 0 t with Some u => sym_no false pat' u (S n) | None => false end
        | SI => match split_expr 0 t with Some u => sym_no false pat' u (S n) | None => false end
        end
      else match x with
      | SL d => if tolower c =? tolower d then sym_no (negb (d =? 44)) pat' t' n else true
      | SI => negb (c =? 43) && negb (c =? 45)
      | SP =>
        if isalnum c then
          Nat.leb n 2 && existsb (eqbl (map tolower (word pat))) reserved_of &&
          match aword pat with [] => true | d :: _ => (d =? 64) || punct d end &&
          match t' with [] => true | SL d :: _ => punct d | _ => false end
        else memb c [40; 41; 44]
      end
    end
  end.
Lemma same_lower a b : map tolower a = map tolower b <-> same_word a b.
Proof.
  revert b. induction a as [|x a IH]; intros [|y b]; split; intros H; try discriminate; try (now inversion H); try constructor.
  - cbn in H. injection H as H1 H2. apply same_iff. lia.
  - cbn in H. injection H as H1 H2. now apply IH.
  - inversion H; subst. cbn. f_equal; [|now apply IH]. apply same_iff in H3. lia.
Qed.
Lemma not_reserved nm pat c : ~ reserved o nm -> existsb (eqbl (map tolower (word (c :: pat)))) reserved_of = true -> isalnum c = true ->
  ~ same_word nm (word (c :: pat)).
Proof.
  intros H E Hc K. apply H. apply existsb_exists in E as (v & I & E). apply eqbl_eq in E. subst v. unfold reserved_of in I.
  apply in_concat in I as (l & Il & Iv). apply in_map_iff in Il as (i & <- & Ii). apply in_map_iff in Iv as (v & Ev & Iv).
  exists i, v. split; [exact Ii|]. split; [exact Iv|]. split.
  - intros ->. cbn [word] in Ev. rewrite Hc in Ev. discriminate.
  - apply same_lower. rewrite Ev. now apply same_lower.
Qed.
Lemma name_same c d : same_char c d -> is_name_char c = is_name_char d.
Proof. intros H. unfold is_name_char, isalnum, isalpha, isdigit, isupper, islower, same_char, memb in *. simpl in *. lia. Qed.
Lemma field_app a b : field_ok (a ++ b) -> field_ok a /\ field_ok b.
Proof. apply Forall_app. Qed.

Lemma no_match rest s : line_over rest -> forall pat prevok t n, sym_no prevok pat t n = true -> forall ws base before args,
  abs ws t -> field_ok ws -> base = before ++ wtext ws ++ rest -> length args = n ->
  (prevok = true -> exists b x, before = b ++ [x] /\ x <> 44) -> zlen (wtext ws) <= 254 ->
  fails base pat (wtext ws ++ rest) args s.
Proof.
  intros Hr. induction pat as [|c pat IH]; intros prevok t n H ws base before args Ha Hf Eb En Hprev Hlen; cbn [sym_no] in H.
  - destruct t as [|x t]; [discriminate|]. inversion Ha; subst. apply stop_fails; [reflexivity|]. rewrite field_eol by assumption. reflexivity.
  - destruct t as [|x t].
    + inversion Ha; subst. pose proof (field_eol [] rest Hf Hr) as E. apply stop_eol; [exact E|]. intros ->. cbn [Z.eqb Pos.eqb negb orb] in H.
      apply andb_true_iff in H as (H1 & H2). apply Nat.leb_le in H1. split; [lia|]. intros ->. discriminate.
    + inversion Ha as [|w ? ws1 ? Hx Ha']; subst. inversion Hf as [|? ? Hw Hf']; subst.
      pose proof (field_eol _ rest Hf Hr) as Ne. cbn iota in Ne.
      assert (Arg : is_arg c = true -> (length args <= 2)%nat -> (c = 64 -> is_name_char (hd0 (item_text (fst w))) = false) ->
        match split_expr 0 (x :: t) with Some u => sym_no false pat u (S (length args)) | None => false end = true ->
        match fst w with IChar d => d <> 41 /\ d <> 44 | _ => True end ->
        fails (before ++ wtext (w :: ws1) ++ rest) (c :: pat) (wtext (w :: ws1) ++ rest) args s).
      { intros A Hn Hc Hs Hd. destruct (split_expr 0 (x :: t)) as [u|] eqn:Eu; [|discriminate].
        destruct (split_sound rest Hr _ _ _ _ Eu Ha Hf) as (run & ws' & Ew & A1 & (ps & Hps & Et) & A3 & A4).
        destruct run as [|w' run].
        { exfalso. cbn [app] in Ew. subst ws'. rewrite wtext_cons in A3. destruct (item_head _ Hw) as (h & th & E1 & _ & E2 & E3).
          rewrite E1 in A3. cbn [app] in A3. destruct w as [[d|l|l] b]; cbn [fst snd item_text] in *.
          - injection E1 as <- <-. destruct A3 as [(t' & [= -> _])|[A3|(d' & t' & [= -> _] & [K|K])]]; try tauto; try discriminate.
            apply (is_eol_cons _ []) in K. congruence.
          - destruct A3 as [(t' & [= -> _])|[A3|(d' & t' & [= -> _] & [K|K])]]; try tauto; try discriminate.
            apply (is_eol_cons _ th) in K. congruence.
          - destruct A3 as [(t' & [= -> _])|[A3|(d' & t' & [= -> _] & [K|K])]]; try lia; try discriminate.
            apply (is_eol_cons _ th) in K. congruence. }
        cbn [app] in Ew. injection Ew as <- Ew. destruct (item_head _ Hw) as (h & th & E1 & E2 & _).
        assert (Eh : exists th', pieces_text ps = h :: th') by (rewrite <- Et, wtext_cons, E1; cbn [app]; eauto). destruct Eh as (th' & Eh).
        assert (T : wtext (w :: ws1) = pieces_text ps ++ wtext ws') by (rewrite <- Et, <- wtext_app; cbn [app]; now rewrite Ew).
        rewrite T in *. rewrite <- app_assoc. rewrite zlen_app in Hlen. pose proof (zlen_nonneg (wtext ws')).
        unfold fails, gives, bind. rewrite (step_arg _ before) with (s := s); auto; try lia.
        - assert (Fw : field_ok ws'). { subst ws1. inversion Hf as [|? ? _ Hf2]; subst. now apply field_app in Hf2 as (_ & ?). }
          rewrite field_skip by assumption. eapply (IH false u (S (length args)) Hs ws' _ (before ++ pieces_text ps)); auto.
          + now rewrite <- app_assoc.
          + rewrite app_length. simpl. lia.
          + discriminate.
          + pose proof (zlen_nonneg (pieces_text ps)). lia.
        - exists h, th'. auto.
        - intros K. rewrite Eh. specialize (Hc K). rewrite E1 in Hc. exact Hc. }
      destruct (is_arg c) eqn:A.
      * apply andb_true_iff in H as (Hn & H). apply Nat.leb_le in Hn. unfold abs1 in Hx. destruct w as [i b]. cbn [fst snd] in *.
        destruct x as [d| |]; destruct i as [d'|l|l]; try contradiction.
        -- destruct (Z.eqb_spec c 64) as [->|N].
           ++ destruct (is_name_char d) eqn:Nd.
              ** apply stop_fails; [|auto]. cbn [match_pattern]. rewrite Ne, A. cbv zeta. rewrite wtext_cons. cbn [fst item_text app hd0].
                 rewrite (name_same _ _ Hx), Nd. reflexivity.
              ** cbn [orb] in H. apply andb_true_iff in H as (H & H3). apply andb_true_iff in H as (H1 & H2).
                 assert (d' = 41) by (unfold same_char in Hx; lia). subst d'. destruct (Hprev H2) as (b' & y & -> & Ny).
                 set (p := wtext ((IChar 41, b) :: ws1) ++ rest) in *.
                 assert (Ep : p = 41 :: b ++ wtext ws1 ++ rest) by (unfold p; rewrite wtext_cons; cbn [fst snd item_text app]; now rewrite <- app_assoc).
                 unfold fails, gives, bind. rewrite Ep. rewrite (step_no_index _ b' y) with (s := s); [|rewrite <- app_assoc; reflexivity|exact Ny|lia].
                 rewrite <- Ep. unfold p. eapply (IH false _ _ H3 ((IChar 41, b) :: ws1) _ (b' ++ [y])); auto; try discriminate; rewrite app_length; simpl; lia.
           ++ apply andb_true_iff in H as (H & H3). apply Arg; auto; [congruence|]. unfold same_char in Hx. lia.
        -- apply andb_true_iff in H as (H & H3). apply Arg; auto. intros ->. discriminate.
        -- apply Arg; auto. intros _. destruct Hw as (_ & (_ & _ & (z & tz & Ez & Hz))). cbn [item_text]. rewrite Ez. cbn [hd0]. destruct Hz as [->| ->]; reflexivity.
      * unfold abs1 in Hx. destruct w as [i b]. cbn [fst snd] in *. destruct (item_head _ Hw) as (h & th & E1 & E2 & E3 & E4). cbn [fst] in *.
        assert (T : wtext ((i, b) :: ws1) ++ rest = h :: th ++ b ++ wtext ws1 ++ rest).
        { rewrite wtext_cons. cbn [fst snd]. rewrite E1. cbn [app]. now rewrite <- !app_assoc. }
        rewrite T in *. destruct x as [d| |]; destruct i as [d'|l|l]; try contradiction; cbn [item_text] in *.
        -- injection E1 as <- <-. cbn [app] in *. destruct (tolower c =? tolower d) eqn:K.
           ++ assert (K' : tolower d' =? tolower c = true) by (apply same_iff in Hx; lia).
              assert (F : fails (before ++ d' :: b ++ wtext ws1 ++ rest) pat (wtext ws1 ++ rest) args s).
              { eapply (IH _ _ _ H ws1 _ (before ++ d' :: b)); auto.
                - now rewrite <- app_assoc.
                - intros Hd. destruct (item_last _ Hw) as (t' & y & Ey & Ny). cbn [fst snd item_text app] in *. rewrite Ey. exists (before ++ t'), y.
                  split; [apply app_assoc|]. apply Ny. unfold same_char in Hx. lia.
                - rewrite wtext_cons, zlen_app, zlen_app in Hlen. cbn [fst snd item_text] in Hlen. rewrite zlen_cons, zlen_nil in Hlen. pose proof (zlen_nonneg b). lia. }
              destruct F as (q & F). exists q. apply gives_char; auto. rewrite sig_app; auto. apply Hw.
           ++ apply stop_char; auto. apply same_iff in Hx. lia.
        -- destruct (isalnum c) eqn:Ac.
           ++ apply andb_true_iff in H as (H & H4). apply andb_true_iff in H as (H & H3). apply andb_true_iff in H as (H1 & H2). apply Nat.leb_le in H1.
              destruct Hw as (Hb & (Hp & Hcl & (nm & b2 & r & E & Hnm & Hb2 & Hres & Hne & Hnb & Hrr))). cbn [snd] in *.
              rewrite <- (word_aword (c :: pat)).
              replace (h :: th ++ b ++ wtext ws1 ++ rest) with (skip_ws (nm ++ b2 ++ r ++ b ++ wtext ws1 ++ rest)).
              2:{ rewrite !app_assoc. rewrite <- (app_assoc nm), <- E, E1. cbn [app]. rewrite skip_ws_nonblank by assumption. now rewrite <- !app_assoc. }
              apply word_fails.
              ** lia.
              ** destruct (aword (c :: pat)); [exact I|]. apply orb_true_iff in H3. destruct H3 as [H3|H3]; [left; lia|now right].
              ** apply word_alnum.
              ** eapply Forall_impl; [|exact Hnm]. intros z. apply nc_iff.
              ** now apply not_reserved.
              ** rewrite skip_ws_app by assumption. destruct Hrr as [->|(z & tz & -> & Hz1 & Hz2 & _)].
                 --- cbn [app]. rewrite sig_app by assumption. rewrite field_eol by assumption. destruct ws1 as [|w1 ws1]; [now left|]. right.
                     inversion Ha' as [|? ? ? ? Hx1 _]; subst. unfold abs1 in Hx1. inversion Hf' as [|? ? Hw1 _]; subst. destruct w1 as [i1 b1]. cbn [fst] in *.
                     destruct y as [e| |]; [|discriminate|discriminate]. destruct i1 as [e'|?|?]; try contradiction.
                     rewrite wtext_cons. cbn [fst snd item_text app]. eexists _, _. split; [reflexivity|]. split; [|reflexivity].
                     unfold punct in H4. apply memb_In in H4. simpl in H4. destruct (isalnum e') eqn:Ee; [|reflexivity]. apply lod_iff in Ee.
                     unfold same_char, letter_or_digit in *. lia.
                 --- cbn [app]. rewrite skip_ws_nonblank by assumption. destruct (is_eol (z :: tz ++ b ++ wtext ws1 ++ rest)) eqn:Ez; [now left|]. right.
                     eexists _, _. split; [reflexivity|]. split; [|reflexivity]. destruct (isalnum z) eqn:Ez2; [|reflexivity]. apply lod_iff in Ez2. contradiction.
           ++ apply memb_In in H. simpl in H. apply stop_char; auto. destruct (tolower h =? tolower c) eqn:K; [|reflexivity]. apply same_iff in K. unfold same_char in K. lia.
        -- apply stop_char; auto. destruct (tolower h =? tolower c) eqn:K; [|reflexivity]. apply same_iff in K. unfold same_char in K. lia.
Qed.
End Field.
