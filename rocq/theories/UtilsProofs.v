(** Lemmas on the lexical scanners. *)
From Verif Require Import Base BaseProofs State MonadProofs UtilsModel ErrorsModel ParserModel UtilsSpec.

Lemma zlen_app {A} (a b : list A) : zlen (a ++ b) = zlen a + zlen b.
Proof. unfold zlen. rewrite app_length. lia. Qed.
Lemma zlen_cons {A} (x : A) l : zlen (x :: l) = 1 + zlen l.
Proof. unfold zlen. simpl length. lia. Qed.
Lemma zlen_nil {A} : zlen (@nil A) = 0.
Proof. reflexivity. Qed.
Lemma zlen_nonneg {A} (l : list A) : 0 <= zlen l.
Proof. unfold zlen. lia. Qed.
Lemma zlen_rev {A} (l : list A) : zlen (rev l) = zlen l.
Proof. unfold zlen. now rewrite rev_length. Qed.
Ltac zl := autorewrite with zlen in *; lia.
Global Hint Rewrite @zlen_app @zlen_cons @zlen_nil @zlen_rev : zlen.

Lemma memb_In c l : memb c l = true <-> In c l.
Proof.
  unfold memb. rewrite existsb_exists. split.
  - intros (x & H & E). apply Z.eqb_eq in E. now subst.
  - intros H. exists c. split; [assumption|apply Z.eqb_refl].
Qed.
Lemma memb_not c l : ~ In c l -> memb c l = false.
Proof. intros H. destruct (memb c l) eqn:E; [|reflexivity]. apply memb_In in E. contradiction. Qed.

Lemma is_eol_cons c p : is_eol (c :: p) = true <-> line_ender c.
Proof. unfold line_ender. simpl. lia. Qed.
Lemma is_eol_not c p : ~ line_ender c -> is_eol (c :: p) = false.
Proof. intros H. destruct (is_eol (c :: p)) eqn:E; [|reflexivity]. apply is_eol_cons in E. contradiction. Qed.

Lemma is_blank_iff c : is_blank c = true <-> blank c.
Proof. unfold is_blank, isspace, blank. lia. Qed.

(** * White space, names, lines *)
Lemma skip_ws_spec p : exists a, p = a ++ skip_ws p /\ Forall blank a /\
  (skip_ws p = [] \/ exists c t, skip_ws p = c :: t /\ ~ blank c).
Proof.
  induction p as [|c p (a & E & H & S)]; simpl.
  - exists []. auto.
  - destruct (is_blank c) eqn:B.
    + exists (c :: a). simpl. rewrite <- E. repeat split; auto. constructor; [now apply is_blank_iff|assumption].
    + exists []. repeat split; auto. right. exists c, p. split; [reflexivity|].
      intros K. apply is_blank_iff in K. congruence.
Qed.
Lemma skip_ws_app a p : Forall blank a -> skip_ws (a ++ p) = skip_ws p.
Proof.
  induction 1 as [|c a Hc _ IH]; simpl; [reflexivity|].
  apply is_blank_iff in Hc. now rewrite Hc.
Qed.
Lemma skip_ws_nonblank c p : ~ blank c -> skip_ws (c :: p) = c :: p.
Proof.
  intros H. simpl. destruct (is_blank c) eqn:B; [|reflexivity]. apply is_blank_iff in B. contradiction.
Qed.
Lemma skip_ws_idem p : skip_ws (skip_ws p) = skip_ws p.
Proof.
  destruct (skip_ws_spec p) as (a & _ & _ & [E|(c & t & E & H)]); rewrite E; [reflexivity|now apply skip_ws_nonblank].
Qed.
Lemma skip_ws_length p : (length (skip_ws p) <= length p)%nat.
Proof. induction p as [|c p IH]; simpl; [lia|]. destruct (is_blank c); simpl; lia. Qed.

Lemma skip_name_spec p : exists a, p = a ++ skip_to_name_end p /\ Forall (fun c => is_name_char c = true) a /\
  (skip_to_name_end p = [] \/ exists c t, skip_to_name_end p = c :: t /\ is_name_char c = false).
Proof.
  induction p as [|c p (a & E & H & S)]; simpl.
  - exists []. auto.
  - destruct (is_name_char c) eqn:B.
    + exists (c :: a). simpl. rewrite <- E. repeat split; auto.
    + exists []. repeat split; auto. right. exists c, p. auto.
Qed.

Definition line_break (c : Z) : Prop := c = 10 \/ c = 13.
Lemma to_line_break_spec p : exists a, p = a ++ to_line_break p /\ Forall (fun c => ~ line_break c) a /\
  (to_line_break p = [] \/ exists c t, to_line_break p = c :: t /\ line_break c).
Proof.
  induction p as [|c p (a & E & H & S)]; simpl.
  - exists []. auto.
  - destruct ((c =? 10) || (c =? 13)) eqn:B.
    + exists []. repeat split; auto. right. exists c, p. split; [reflexivity|unfold line_break; lia].
    + exists (c :: a). simpl. rewrite <- E. repeat split; auto. constructor; [unfold line_break; lia|assumption].
Qed.

(** * The scanner state *)
Definition weight (p : text) (z : scan) : nat :=
  3 * length p + (if in_quote z =? 0 then 0 else if in_quote z =? 1 then 4 else 2).
(** The two pointers kept behind the current one are right when they can be used; [w] is the
    text read so far, reversed. *)
Definition behind (z : scan) (w p2 p1 p : text) : Prop :=
  (in_quote z = 0 \/ in_quote z = 1 \/ in_quote z = 2) /\
  (in_quote z = 2 -> in_escape z = false /\ exists a w', w = a :: w' /\ p1 = a :: p) /\
  (in_quote z = 1 -> exists a b w', w = b :: a :: w' /\ p1 = b :: p /\ p2 = a :: b :: p).
Lemma behind_0 z w p2 p1 p : in_quote z = 0 -> behind z w p2 p1 p.
Proof. unfold behind. intros ->. intuition discriminate. Qed.

Lemma scan_step_behind c z w p2 p1 p z' back :
  behind z w p2 p1 (c :: p) -> scan_step c z = (z', back) ->
  if back then in_quote z' = 0 /\ c <> 34 /\ c <> 39 /\ c <> 92 /\
               (exists a b w', w = b :: a :: w' /\ p1 = b :: c :: p /\ p2 = a :: p1) /\
               (weight p1 z' < weight (c :: p) z)%nat
  else behind z' (c :: w) p1 (c :: p) p /\ (weight p z' < weight (c :: p) z)%nat.
Proof.
  intros (Hq & H2 & H1) E. unfold scan_step in E.
  destruct (in_escape z) eqn:Ee.
  - injection E as <- <-. split.
    + unfold behind. simpl. split; [assumption|]. split.
      * intros Q. destruct (H2 Q) as [K _]. discriminate.
      * intros Q. destruct (H1 Q) as (a & b & w' & -> & -> & _). eauto 8.
    + unfold weight. simpl. destruct (in_quote z =? 0), (in_quote z =? 1); lia.
  - assert (Hdec : forall str esc, (in_quote z =? 0 = true \/ in_quote z =? 1 = true \/ in_quote z = 2) ->
        (forall q', q' = (if in_quote z =? 0 then 0 else in_quote z - 1) ->
         behind (mkscan str esc q') (c :: w) p1 (c :: p) p /\
         (weight p (mkscan str esc q') < weight (c :: p) z)%nat)).
    { intros str esc _ q' ->. split.
      - unfold behind; simpl. destruct (in_quote z =? 0) eqn:Z0; [intuition lia|].
        split; [lia|]. split; [intros; lia|]. intros Q.
        assert (Q2 : in_quote z = 2) by lia. destruct (H2 Q2) as (_ & a & w' & -> & ->). eauto 8.
      - unfold weight. simpl. destruct (in_quote z =? 0) eqn:Z0, (in_quote z =? 1) eqn:Z1,
          (in_quote z - 1 =? 0) eqn:Z2, (in_quote z - 1 =? 1) eqn:Z3; simpl; lia. }
    assert (Hq' : in_quote z =? 0 = true \/ in_quote z =? 1 = true \/ in_quote z = 2) by lia.
    destruct (c =? 34) eqn:C1; [|destruct (c =? 39) eqn:C2; [|destruct (c =? 92) eqn:C3]].
    + injection E as <- <-. apply Hdec; auto.
    + injection E as <- <-. destruct (negb (in_string z) && (in_quote z =? 0)) eqn:Z0.
      * simpl. split.
        -- unfold behind; simpl. split; [lia|]. split; [eauto 6|]. intros; lia.
        -- unfold weight. simpl. destruct (in_quote z =? 0) eqn:Z1; simpl; lia.
      * apply Hdec; auto.
    + injection E as <- <-. apply Hdec; auto.
    + injection E as <- <-. destruct (in_quote z =? 1) eqn:Z1.
      * assert (Q : in_quote z = 1) by lia. destruct (H1 Q) as (a & b & w' & -> & -> & ->).
        rewrite Q. simpl. repeat split; eauto 8; try lia.
        unfold weight. rewrite Q. simpl. lia.
      * apply Hdec; auto.
Qed.

(** * next_expr on every text: it always ends, at a delimiter, a line ender, or the end *)
Definition ends_at (delims p : text) : Prop :=
  p = [] \/ exists c t, p = c :: t /\ (In c delims \/ line_ender c).

Lemma next_expr_loop_total delims : forall fuel z w p2 p1 p,
  behind z w p2 p1 p -> (weight p z < fuel)%nat ->
  exists q w', next_expr_loop fuel delims z p2 p1 p = Some q /\ rev w ++ p = rev w' ++ q /\ ends_at delims q.
Proof.
  induction fuel as [|f IH]; intros z w p2 p1 p Hb Hw; [lia|].
  destruct p as [|c p]; cbn [next_expr_loop].
  - exists [], w. unfold ends_at. auto.
  - destruct ((memb c delims || is_eol (c :: p)) && scan_open z) eqn:E.
    + exists (c :: p), w. split; [reflexivity|]. split; [reflexivity|].
      right. exists c, p. split; [reflexivity|].
      apply andb_prop in E as [E _]. apply orb_prop in E as [E|E]; [left; now apply memb_In|right].
      now apply is_eol_cons in E.
    + destruct (scan_step c z) as [z' back] eqn:Es.
      pose proof (scan_step_behind _ _ _ _ _ _ _ _ Hb Es) as H. destruct back.
      * destruct H as (Q' & _ & _ & _ & (a & b & w' & -> & -> & ->) & W).
        destruct (IH z' (a :: w') (a :: b :: c :: p) (a :: b :: c :: p) (b :: c :: p)) as (q & w'' & E1 & E2 & E3).
        -- now apply behind_0.
        -- lia.
        -- exists q, w''. split; [exact E1|]. split; [|exact E3]. rewrite <- E2. simpl.
           now rewrite <- !app_assoc.
      * destruct H as [Hb' Hw']. destruct (IH z' (c :: w) p1 (c :: p) p) as (q & w' & E1 & E2 & E3).
        -- assumption.
        -- lia.
        -- exists q, w'. split; [exact E1|]. split; [|exact E3]. rewrite <- E2. simpl. now rewrite <- app_assoc.
Qed.

Lemma next_expr_total delims p : exists a, p = a ++ next_expr p delims /\
  (ends_at delims (next_expr p delims) \/ hd0 (next_expr p delims) = 41).
Proof.
  unfold next_expr. destruct (skip_ws_spec p) as (a & E & _ & _).
  destruct (is_eol (skip_ws p) || (hd0 (skip_ws p) =? 41)) eqn:B.
  - exists a. split; [exact E|]. destruct (skip_ws p) as [|c t] eqn:S; [left; left; reflexivity|].
    apply orb_prop in B as [B|B].
    + left. right. exists c, t. split; [reflexivity|]. right. now apply is_eol_cons in B.
    + right. simpl in *. lia.
  - destruct (next_expr_loop_total delims (3 * length (skip_ws p) + 5) scan0 [] (skip_ws p) (skip_ws p) (skip_ws p))
      as (q & w' & E1 & E2 & E3).
    + now apply behind_0.
    + unfold weight. simpl. lia.
    + rewrite E1. exists (a ++ rev w'). split; [|left; exact E3].
      rewrite <- app_assoc, <- E2. exact E.
Qed.

(** * read_expr on every text *)
Lemma rtrim_spec w : exists b, w = b ++ rtrim w /\ Forall (fun c => isspace c = true) b /\
  (rtrim w = [] \/ exists c t, rtrim w = c :: t /\ isspace c = false).
Proof.
  induction w as [|c w (b & E & H & S)]; simpl.
  - exists []. auto.
  - destruct (isspace c) eqn:B.
    + exists (c :: b). simpl. rewrite <- E. auto.
    + exists []. repeat split; auto. right. eauto.
Qed.

Lemma read_expr_loop_total buf delims : forall fuel z level w p2 p1 p,
  behind z w p2 p1 p -> (weight p z < fuel)%nat ->
  exists r w', read_expr_loop fuel buf delims z level (if buf then w else []) p2 p1 p = Some r /\
    rx_ret r = true /\
    (rx_long r = false -> rev w ++ p = rev w' ++ rx_ptr r /\
       (ends_at delims (rx_ptr r) \/ hd0 (rx_ptr r) = 41) /\
       rx_word r = if buf then rev (rtrim w') else []) /\
    (buf = false -> rx_long r = false).
Proof.
  induction fuel as [|f IH]; intros z level w p2 p1 p Hb Hw; [lia|].
  assert (Hend : forall c t, (memb c delims || is_eol (c :: t)) = true -> ends_at delims (c :: t)).
  { intros c t E. right. exists c, t. split; [reflexivity|].
    apply orb_prop in E as [E|E]; [left; now apply memb_In|right]. now apply is_eol_cons in E. }
  assert (Hword : rev (rtrim (if buf then w else [])) = if buf then rev (rtrim w) else []) by now destruct buf.
  destruct p as [|c p]; cbn [read_expr_loop].
  - eexists _, w. split; [reflexivity|]. cbn [rx_ret rx_long rx_ptr rx_word]. split; [reflexivity|]. split; [|auto].
    intros _. split; [reflexivity|]. split; [left; left; reflexivity|exact Hword].
  - destruct ((memb c delims || is_eol (c :: p)) && scan_open z && (level =? 0)) eqn:E.
    + eexists _, w. split; [reflexivity|]. cbn [rx_ret rx_long rx_ptr rx_word]. split; [reflexivity|]. split; [|auto].
      intros _. split; [reflexivity|]. split; [|exact Hword]. left. apply Hend.
      apply andb_prop in E as [E _]. now apply andb_prop in E as [E _].
    + set (level' := if negb (in_escape z) && negb (in_string z) && (in_quote z =? 0) && (c =? 40) then level + 1
                      else if negb (in_escape z) && negb (in_string z) && (in_quote z =? 0) && (c =? 41)
                           then level - 1 else level).
      destruct (negb (in_escape z) && (c =? 41) && (level' <? 0)) eqn:E2.
      * eexists _, w. split; [reflexivity|]. cbn [rx_ret rx_long rx_ptr rx_word]. split; [reflexivity|]. split; [|auto].
        intros _. split; [reflexivity|]. split; [|exact Hword]. right. simpl. lia.
      * destruct (scan_step c z) as [z' back0] eqn:Es.
        pose proof (scan_step_behind _ _ _ _ _ _ _ _ Hb Es) as H.
        assert (Hfwd : (back0 = false \/ is_paren c = true) -> behind z' (c :: w) p1 (c :: p) p /\ (weight p z' < weight (c :: p) z)%nat).
        { intros Hc. destruct back0; [|exact H]. destruct H as (Q' & _ & _ & _ & (a & b & w' & -> & -> & ->) & W).
          split; [now apply behind_0|]. unfold weight in *. simpl length in *. rewrite Q' in *. simpl in *. lia. }
        destruct (back0 && negb (is_paren c)) eqn:Ebk.
        -- apply andb_prop in Ebk as [-> Ep]. destruct H as (Q' & _ & _ & _ & (a & b & w' & -> & -> & ->) & W).
           match goal with |- context [if ?x then Some _ else _] => destruct x eqn:El end.
           ++ eexists _, []. split; [reflexivity|]. cbn [rx_ret rx_long rx_ptr rx_word]. split; [reflexivity|].
              split; [discriminate|]. intros ->. discriminate.
           ++ destruct (IH z' level' (a :: w') (a :: b :: c :: p) (a :: b :: c :: p) (b :: c :: p)) as (r & w'' & E1 & E3 & E4).
              ** now apply behind_0.
              ** lia.
              ** exists r, w''. split.
                 { rewrite <- E1. destruct buf; reflexivity. }
                 split; [exact E3|]. simpl in E4 |- *. rewrite <- !app_assoc in *. simpl in *. exact E4.
        -- cbn [andb]. match goal with |- context [if ?x then Some _ else _] => destruct x eqn:El end.
           ++ eexists _, []. split; [reflexivity|]. cbn [rx_ret rx_long rx_ptr rx_word]. split; [reflexivity|].
              split; [discriminate|]. intros ->. discriminate.
           ++ destruct Hfwd as [Hb' Hw'].
              { destruct back0; [right|left; reflexivity]. simpl in Ebk. now destruct (is_paren c). }
              destruct (IH z' level' (c :: w) p1 (c :: p) p) as (r & w'' & E1 & E3 & E4).
              ** exact Hb'.
              ** lia.
              ** exists r, w''. split.
                 { rewrite <- E1. destruct buf; reflexivity. }
                 split; [exact E3|]. simpl in E4 |- *. rewrite <- !app_assoc in *. simpl in *. exact E4.
Qed.

Lemma read_expr_gen_total buf p delims :
  let r := read_expr_gen buf p delims in
  if rx_ret r then
    rx_long r = false -> exists ws w', p = ws ++ rev w' ++ rx_ptr r /\ Forall blank ws /\
      (ends_at delims (rx_ptr r) \/ hd0 (rx_ptr r) = 41) /\
      rx_word r = if buf then rev (rtrim w') else []
  else rx_long r = false /\ rx_word r = [] /\
       exists ws, p = ws ++ rx_ptr r /\ Forall blank ws /\ (ends_at [] (rx_ptr r) \/ hd0 (rx_ptr r) = 41).
Proof.
  unfold read_expr_gen. cbv zeta. destruct (skip_ws_spec p) as (a & E & Ha & _).
  destruct (is_eol (skip_ws p) || (hd0 (skip_ws p) =? 41)) eqn:B.
  - cbn [rx_ret rx_long rx_ptr rx_word]. split; [reflexivity|]. split; [reflexivity|].
    exists a. split; [exact E|]. split; [exact Ha|].
    destruct (skip_ws p) as [|c t] eqn:S; [left; left; reflexivity|].
    apply orb_prop in B as [B|B].
    + left. right. exists c, t. split; [reflexivity|]. right. now apply is_eol_cons in B.
    + right. simpl in *. lia.
  - destruct (read_expr_loop_total buf delims (3 * length (skip_ws p) + 5) scan0 0 [] (skip_ws p) (skip_ws p) (skip_ws p))
      as (r & w' & E1 & E2 & E3 & _).
    + now apply behind_0.
    + unfold weight. simpl. lia.
    + assert (E1' : read_expr_loop (3 * length (skip_ws p) + 5) buf delims scan0 0 [] (skip_ws p) (skip_ws p) (skip_ws p) = Some r)
        by (destruct buf; exact E1).
      rewrite E1', E2. intros L. destruct (E3 L) as (F1 & F2 & F3).
      exists a, w'. split; [|auto]. rewrite <- F1. exact E.
Qed.

(** * Reading pieces *)
Section Reach.
Variable delims : text.
Hypothesis plain : ~ In 34 delims /\ ~ In 39 delims /\ ~ In 40 delims.

(** From any history, [n] steps of the reading loop lead from one situation to another. *)
Definition reach (n : nat) (z : scan) (l : Z) (w p : text) (z' : scan) (l' : Z) (w' p' : text) : Prop :=
  forall f p2 p1, exists p2' p1',
    read_expr_loop (n + f) true delims z l w p2 p1 p = read_expr_loop f true delims z' l' w' p2' p1' p'.

Lemma reach_refl z l w p : reach 0 z l w p z l w p.
Proof. intros f p2 p1. exists p2, p1. reflexivity. Qed.
Lemma reach_trans n m z l w p z1 l1 w1 p1 z2 l2 w2 p2 :
  reach n z l w p z1 l1 w1 p1 -> reach m z1 l1 w1 p1 z2 l2 w2 p2 -> reach (n + m) z l w p z2 l2 w2 p2.
Proof.
  intros H1 H2 f q2 q1. destruct (H1 (m + f)%nat q2 q1) as (q2' & q1' & E1).
  destruct (H2 f q2' q1') as (q2'' & q1'' & E2). exists q2'', q1''.
  rewrite <- Nat.add_assoc, E1. exact E2.
Qed.

Definition next_level (z : scan) (l c : Z) : Z :=
  let live := negb (in_escape z) && negb (in_string z) && (in_quote z =? 0) in
  if live && (c =? 40) then l + 1 else if live && (c =? 41) then l - 1 else l.

Lemma reach_step z l w c p :
  ((memb c delims || is_eol (c :: p)) && scan_open z && (l =? 0)) = false ->
  (negb (in_escape z) && (c =? 41) && (next_level z l c <? 0)) = false ->
  snd (scan_step c z) && negb (is_paren c) = false ->
  zlen w < 254 ->
  reach 1 z l w (c :: p) (fst (scan_step c z)) (next_level z l c) (c :: w) p.
Proof.
  intros H1 H2 H3 H4 f p2 p1. exists p1, (c :: p). cbn [Nat.add read_expr_loop].
  rewrite H1. fold (next_level z l c). cbv zeta in H2.
  unfold next_level in *. cbv zeta in *. rewrite H2.
  destruct (scan_step c z) as [z' b]. simpl in H3. rewrite H3. cbn [andb fst].
  replace (254 <=? zlen w) with false by lia. reflexivity.
Qed.

Lemma no_stop c z l p : (c = 34 \/ c = 39 \/ c = 40 \/ scan_open z = false \/ l <> 0) ->
  ((memb c delims || is_eol (c :: p)) && scan_open z && (l =? 0)) = false.
Proof.
  destruct plain as (P1 & P2 & P3). intros [->|[->|[->|[->|H]]]].
  - now rewrite (memb_not _ _ P1).
  - now rewrite (memb_not _ _ P2).
  - now rewrite (memb_not _ _ P3).
  - now rewrite andb_false_r.
  - replace (l =? 0) with false by lia. now rewrite andb_false_r.
Qed.

(** One step inside a literal: the parenthesis level does not change. *)
Lemma reach_lit z l w c p z' : 0 <= l -> scan_open z = false \/ c = 34 \/ c = 39 ->
  fst (scan_step c z) = z' -> snd (scan_step c z) = false -> zlen w < 254 ->
  reach 1 z l w (c :: p) z' l (c :: w) p.
Proof.
  intros Hl Hz <- Hb Hw.
  assert (E : next_level z l c = l).
  { unfold next_level, scan_open in *. destruct (negb (in_escape z) && negb (in_string z) && (in_quote z =? 0)) eqn:E.
    - destruct (c =? 40) eqn:?, (c =? 41) eqn:?; simpl; try lia; destruct Hz as [Hz|Hz]; try lia; discriminate.
    - reflexivity. }
  rewrite <- E at 2. apply reach_step.
  - apply no_stop. intuition.
  - rewrite E. replace (l <? 0) with false by lia. apply andb_false_r.
  - now rewrite Hb.
  - assumption.
Qed.

Definition level_ok (top : bool) (l : Z) : Prop := if top then l = 0 else 0 < l.

Lemma reach_str_body body : Forall sitem_ok body -> forall l w p, 0 <= l ->
  zlen w + zlen (flat_map sitem_text body) <= 254 ->
  reach (length (flat_map sitem_text body)) (mkscan true false 0) l w (flat_map sitem_text body ++ p)
        (mkscan true false 0) l (rev (flat_map sitem_text body) ++ w) p.
Proof.
  induction 1 as [|i body Hi _ IH]; intros l w p Hl Hw.
  - apply reach_refl.
  - cbn [flat_map] in *.
    pose proof (zlen_nonneg (flat_map sitem_text body)).
    destruct i as [c|c]; cbn [sitem_text app length rev] in *.
    + destruct Hi as [Hi1 Hi2].
      change (S (length (flat_map sitem_text body))) with (1 + length (flat_map sitem_text body))%nat.
      eapply reach_trans; [apply (reach_lit _ _ _ _ _ (mkscan true false 0)); auto|].
      * unfold scan_step. cbn. destruct (c =? 34) eqn:?, (c =? 39), (c =? 92) eqn:?; reflexivity || lia.
      * unfold scan_step. cbn. destruct (c =? 34) eqn:?, (c =? 39), (c =? 92) eqn:?; reflexivity || lia.
      * zl.
      * rewrite <- app_assoc. apply IH; zl.
    + change (S (S (length (flat_map sitem_text body)))) with (1 + (1 + length (flat_map sitem_text body)))%nat.
      eapply reach_trans; [apply (reach_lit _ _ _ _ _ (mkscan true true 0)); auto; zl|].
      eapply reach_trans; [apply (reach_lit _ _ _ _ _ (mkscan true false 0)); auto; zl|].
      rewrite <- !app_assoc. apply IH; zl.
Qed.

Lemma piece_ind' (P : piece -> Prop) :
  (forall c, P (PChar c)) -> (forall l, P (PStr l)) -> (forall c, P (PLit c)) -> (forall c, P (PEsc c)) ->
  (forall l, Forall P l -> P (PGroup l)) -> forall p, P p.
Proof.
  intros H1 H2 H3 H4 H5. fix IH 1. intros [c|l|c|c|l]; [apply H1|apply H2|apply H3|apply H4|].
  apply H5. induction l as [|q l IHl]; constructor; [apply IH|apply IHl].
Qed.

Lemma reach_pieces_of l : Forall (fun q => forall top lv w p, piece_ok delims top q -> level_ok top lv ->
    zlen w + zlen (piece_text q) <= 254 ->
    reach (length (piece_text q)) scan0 lv w (piece_text q ++ p) scan0 lv (rev (piece_text q) ++ w) p) l ->
  forall top lv w p, Forall (piece_ok delims top) l -> level_ok top lv ->
    zlen w + zlen (flat_map piece_text l) <= 254 ->
    reach (length (flat_map piece_text l)) scan0 lv w (flat_map piece_text l ++ p)
          scan0 lv (rev (flat_map piece_text l) ++ w) p.
Proof.
  induction 1 as [|q l Hq _ IH]; intros top lv w p Hok Hl Hw.
  - apply reach_refl.
  - inversion Hok; subst. cbn [flat_map] in *. rewrite zlen_app in Hw.
    pose proof (zlen_nonneg (flat_map piece_text l)).
    rewrite app_length, <- app_assoc, rev_app_distr, <- app_assoc.
    eapply reach_trans; [eapply Hq; eauto; lia|].
    eapply IH; eauto. zl.
Qed.

Lemma reach_piece q : forall top lv w p, piece_ok delims top q -> level_ok top lv ->
    zlen w + zlen (piece_text q) <= 254 ->
    reach (length (piece_text q)) scan0 lv w (piece_text q ++ p) scan0 lv (rev (piece_text q) ++ w) p.
Proof.
  induction q as [c|l|c|c|l IH] using piece_ind'; intros top lv w p Hok Hl Hw; inversion Hok; subst;
    (assert (Hl0 : 0 <= lv) by (destruct top; simpl in Hl; lia)).
  - cbn [piece_text app length rev] in *. rewrite zlen_cons, zlen_nil in Hw.
    match goal with H : ~ bracket c |- _ => unfold bracket in H end.
    replace scan0 with (fst (scan_step c scan0)) at 2.
    2:{ unfold scan_step. cbn. destruct (c =? 34) eqn:?, (c =? 39) eqn:?, (c =? 92) eqn:?; reflexivity || lia. }
    replace lv with (next_level scan0 lv c) at 2.
    2:{ unfold next_level. cbn. destruct (c =? 40) eqn:?, (c =? 41) eqn:?; lia. }
    apply reach_step.
    + destruct top.
      * match goal with H : true = true -> _ |- _ => destruct (H eq_refl) as [N1 N2] end.
        rewrite (memb_not _ _ N1), (is_eol_not c p N2). reflexivity.
      * simpl in Hl. apply no_stop. lia.
    + replace (c =? 41) with false by lia. reflexivity.
    + unfold scan_step. cbn. destruct (c =? 34) eqn:?, (c =? 39) eqn:?, (c =? 92) eqn:?; reflexivity || lia.
    + lia.
  - cbn [piece_text] in *. rewrite zlen_cons, zlen_app, zlen_cons, zlen_nil in Hw.
    pose proof (zlen_nonneg (flat_map sitem_text l)).
    cbn [length app rev]. rewrite app_length, <- !app_assoc, rev_app_distr, <- app_assoc. cbn [length app rev].
    change (S (length (flat_map sitem_text l) + 1)) with (1 + (length (flat_map sitem_text l) + 1))%nat.
    eapply reach_trans; [apply (reach_lit _ _ _ _ _ (mkscan true false 0)); auto; lia|].
    eapply reach_trans; [apply reach_str_body; [assumption|lia|zl]|].
    rewrite app_comm_cons. apply reach_lit; auto.
    zl.
  - cbn [piece_text length app rev] in *. rewrite !zlen_cons, zlen_nil in Hw. change 3%nat with (1 + (1 + 1))%nat.
    eapply reach_trans; [apply (reach_lit _ _ _ _ _ (mkscan false false 2)); auto; lia|].
    eapply reach_trans; [apply (reach_lit _ _ _ _ _ (mkscan false false 1)); auto|].
    + unfold scan_step. cbn. destruct (c =? 34), (c =? 39), (c =? 92) eqn:?; reflexivity || lia.
    + unfold scan_step. cbn. destruct (c =? 34), (c =? 39), (c =? 92) eqn:?; reflexivity || lia.
    + zl.
    + apply reach_lit; auto. zl.
  - cbn [piece_text length app rev] in *. rewrite !zlen_cons, zlen_nil in Hw. change 4%nat with (1 + (1 + (1 + 1)))%nat.
    eapply reach_trans; [apply (reach_lit _ _ _ _ _ (mkscan false false 2)); auto; lia|].
    eapply reach_trans; [apply (reach_lit _ _ _ _ _ (mkscan false true 1)); auto; zl|].
    eapply reach_trans; [apply (reach_lit _ _ _ _ _ (mkscan false false 1)); auto; zl|].
    apply reach_lit; auto. zl.
  - cbn [piece_text] in *. rewrite zlen_cons, zlen_app, zlen_cons, zlen_nil in Hw.
    pose proof (zlen_nonneg (flat_map piece_text l)).
    cbn [length app rev]. rewrite app_length, <- !app_assoc, rev_app_distr, <- app_assoc. cbn [length app rev].
    change (S (length (flat_map piece_text l) + 1)) with (1 + (length (flat_map piece_text l) + 1))%nat.
    eapply reach_trans; [apply reach_step|].
    + apply no_stop. auto.
    + reflexivity.
    + reflexivity.
    + lia.
    + replace (next_level scan0 lv 40) with (lv + 1) by reflexivity.
      replace (fst (scan_step 40 scan0)) with scan0 by reflexivity.
      eapply reach_trans; [eapply reach_pieces_of; eauto|].
      * simpl. lia.
      * zl.
      * replace lv with (next_level scan0 (lv + 1) 41) at 2 by (unfold next_level; simpl; lia).
        rewrite app_comm_cons.
        match goal with |- reach 1 ?z ?l ?w ?p ?z' ?l' ?w' ?p' =>
          change (reach 1 z l w p (fst (scan_step 41 scan0)) l' w' p') end.
        apply reach_step.
        -- apply no_stop. lia.
        -- unfold next_level. simpl. lia.
        -- reflexivity.
        -- zl.
Qed.

Lemma reach_pieces l : forall top lv w p, Forall (piece_ok delims top) l -> level_ok top lv ->
    zlen w + zlen (pieces_text l) <= 254 ->
    reach (length (pieces_text l)) scan0 lv w (pieces_text l ++ p) scan0 lv (rev (pieces_text l) ++ w) p.
Proof.
  apply reach_pieces_of. apply Forall_forall. intros q _. apply reach_piece.
Qed.

Lemma reach_blanks b : Forall blank b -> forall w p, (forall c, In c delims -> ~ blank c) ->
  zlen w + zlen b <= 254 -> reach (length b) scan0 0 w (b ++ p) scan0 0 (rev b ++ w) p.
Proof.
  intros Hb w p Hd Hw.
  assert (E : pieces_text (map PChar b) = b) by (clear; induction b; simpl; [reflexivity|now f_equal]).
  rewrite <- E in Hw |- *. apply (reach_pieces (map PChar b) true); [|reflexivity|assumption].
  apply Forall_map. eapply Forall_impl; [|exact Hb]. intros c Hc. constructor.
  - unfold bracket, blank in *. lia.
  - intros _. split; [intros K; exact (Hd _ K Hc)|]. unfold line_ender, blank in *. lia.
Qed.
End Reach.

Lemma rtrim_app b w : Forall (fun c => isspace c = true) b -> rtrim (b ++ w) = rtrim w.
Proof. induction 1 as [|c b H _ IH]; simpl; [reflexivity|]. now rewrite H. Qed.

(** What may follow the last operand: the end of the line or of the text, or a closing
    parenthesis. *)
Definition stops_list (rest : text) : Prop :=
  rest = [] \/ exists c t, rest = c :: t /\ (line_ender c \/ c = 41).

Lemma read_stop delims f w p2 p1 rest : ends_at delims rest \/ stops_list rest -> (0 < f)%nat ->
  read_expr_loop f true delims scan0 0 w p2 p1 rest = Some (mkrx true rest (rev (rtrim w)) false).
Proof.
  intros H Hf. destruct f as [|f]; [lia|]. cbn [read_expr_loop].
  destruct rest as [|c t]; [reflexivity|].
  assert (Hc : In c delims \/ line_ender c \/ c = 41).
  { destruct H as [[H|(c' & t' & E & H)]|[H|(c' & t' & E & H)]]; try discriminate; injection E as <- <-; tauto. }
  destruct ((memb c delims || is_eol (c :: t)) && scan_open scan0 && (0 =? 0)) eqn:E; [reflexivity|].
  destruct Hc as [Hc|[Hc| ->]].
  - apply memb_In in Hc. rewrite Hc in E. discriminate.
  - apply (is_eol_cons c t) in Hc. rewrite Hc, orb_true_r in E. discriminate.
  - reflexivity.
Qed.

Lemma read_operand_gen delims o rest : ~ In 34 delims /\ ~ In 39 delims /\ ~ In 40 delims ->
  o_after o = [] \/ (forall c, In c delims -> ~ blank c) ->
  operand_okd delims o -> ends_at delims rest \/ stops_list rest ->
  read_expr_gen true (o_before o ++ operand_text o ++ o_after o ++ rest) delims =
  mkrx true rest (operand_text o) false.
Proof.
  intros Hp44 Hbl (Hb & Ha & Hp & (c & t & E & Hc) & (c2 & t2 & E2 & Hc2) & Hlen) Hr.
  unfold read_expr_gen. rewrite skip_ws_app by assumption.
  assert (Hsk : skip_ws (operand_text o ++ o_after o ++ rest) = operand_text o ++ o_after o ++ rest).
  { rewrite E. simpl app. apply skip_ws_nonblank, Hc. }
  rewrite Hsk.
  set (body := operand_text o ++ o_after o ++ rest).
  assert (Hne : is_eol body || (hd0 body =? 41) = false).
  { unfold body. rewrite E. cbn [app]. unfold operand_text in E. destruct (o_body o) as [|q l]; [discriminate|].
    inversion Hp as [|? ? Hq _]; subst. unfold pieces_text in E. cbn [flat_map] in E.
    assert (Hc41 : ~ line_ender c /\ c <> 41).
    { inversion Hq; subst; cbn [piece_text app] in E; injection E; intros; subst;
        unfold line_ender, bracket in *; try lia. }
    destruct Hc41 as [H1 H2]. rewrite (is_eol_not c _ H1). simpl. lia. }
  rewrite Hne.
  pose proof (zlen_nonneg (o_after o)). pose proof (zlen_nonneg (operand_text o)).
  set (n := (length (operand_text o) + length (o_after o))%nat).
  assert (Hf : exists f, (3 * length body + 5 = n + f /\ 0 < f)%nat).
  { exists (3 * length body + 5 - n)%nat. unfold body, n. rewrite !app_length. lia. }
  destruct Hf as (f & -> & Hf).
  assert (Hreach : reach delims n scan0 0 [] body scan0 0 (rev (o_after o) ++ rev (operand_text o) ++ []) rest).
  { unfold n. eapply reach_trans.
    - apply (reach_pieces _ Hp44 (o_body o) true); [assumption|reflexivity|].
      unfold operand_text in Hlen. zl.
    - destruct Hbl as [Hbl|Hbl].
      + rewrite Hbl. cbn [length app rev]. fold (operand_text o). intros f0 q2 q1. exists q2, q1. reflexivity.
      + apply reach_blanks; [assumption|assumption|exact Hbl|]. fold (operand_text o). zl. }
  destruct (Hreach f body body) as (p2' & p1' & ->).
  rewrite (read_stop delims); [|exact Hr|assumption].
  f_equal. rewrite app_nil_r, rtrim_app.
  - rewrite E2, rev_app_distr. simpl. destruct Hc2 as (N1 & N2 & N3).
      replace (isspace c2) with false by (unfold isspace, blank in *; lia).
      simpl. now rewrite rev_involutive.
  - apply Forall_rev. eapply Forall_impl; [|exact Ha]. intros x Hx. unfold blank, isspace in *. lia.
Qed.
Lemma read_operand o rest : operand_ok o -> (exists t, rest = 44 :: t) \/ stops_list rest ->
  read_expr_gen true (o_before o ++ operand_text o ++ o_after o ++ rest) [44] =
  mkrx true rest (operand_text o) false.
Proof.
  intros Ho Hr. apply read_operand_gen; [simpl; lia| |exact Ho|].
  - right. simpl. intros x [<-|[]]. unfold blank. lia.
  - destruct Hr as [(t' & ->)|Hr]; [|right; assumption]. left. right. exists 44, t'. simpl. auto.
Qed.

(** * Reading a whole list, as the directives do *)
Lemma extract_operand o rest more s : operand_ok o -> (exists t, rest = 44 :: t) \/ stops_list rest ->
  extract_arg (o_before o ++ operand_text o ++ o_after o ++ rest) more s =
  Ok (Some (operand_text o), if hd0 rest =? 44 then tl rest else rest, hd0 rest =? 44) s.
Proof.
  intros Ho Hr. unfold extract_arg, read_expr, read_expr'. rewrite (read_operand o rest Ho Hr).
  cbn [rx_long rx_ret rx_ptr rx_word]. msteps. destruct (hd0 rest =? 44); reflexivity.
Qed.

(** * next_expr on pieces *)
Section NReach.
Variable delims : text.
Hypothesis plain : ~ In 34 delims /\ ~ In 39 delims.

Definition nreach (n : nat) (z : scan) (p : text) (z' : scan) (p' : text) : Prop :=
  forall f p2 p1, exists p2' p1',
    next_expr_loop (n + f) delims z p2 p1 p = next_expr_loop f delims z' p2' p1' p'.
Lemma nreach_refl z p : nreach 0 z p z p.
Proof. intros f p2 p1. exists p2, p1. reflexivity. Qed.
Lemma nreach_trans n m z p z1 p1 z2 p2 :
  nreach n z p z1 p1 -> nreach m z1 p1 z2 p2 -> nreach (n + m) z p z2 p2.
Proof.
  intros H1 H2 f q2 q1. destruct (H1 (m + f)%nat q2 q1) as (q2' & q1' & E1).
  destruct (H2 f q2' q1') as (q2'' & q1'' & E2). exists q2'', q1''.
  rewrite <- Nat.add_assoc, E1. exact E2.
Qed.
Lemma nreach_step z c p z' :
  ((memb c delims || is_eol (c :: p)) && scan_open z) = false -> scan_step c z = (z', false) ->
  nreach 1 z (c :: p) z' p.
Proof.
  intros H1 H2 f p2 p1. exists p1, (c :: p). cbn [Nat.add next_expr_loop]. now rewrite H1, H2.
Qed.
Lemma nreach_lit z c p z' : scan_open z = false \/ c = 34 \/ c = 39 -> scan_step c z = (z', false) ->
  nreach 1 z (c :: p) z' p.
Proof.
  intros H1 H2. apply nreach_step; [|assumption]. destruct plain as [P1 P2].
  destruct H1 as [->|[->| ->]]; [apply andb_false_r| |].
  - now rewrite (memb_not _ _ P1).
  - now rewrite (memb_not _ _ P2).
Qed.

Lemma nreach_str_body body : Forall sitem_ok body -> forall p,
  nreach (length (flat_map sitem_text body)) (mkscan true false 0) (flat_map sitem_text body ++ p)
         (mkscan true false 0) p.
Proof.
  induction 1 as [|i body Hi _ IH]; intros p; [apply nreach_refl|]. cbn [flat_map].
  destruct i as [c|c]; cbn [sitem_text app length].
  - destruct Hi as [Hi1 Hi2]. change (S (length (flat_map sitem_text body))) with (1 + length (flat_map sitem_text body))%nat.
    eapply nreach_trans; [apply (nreach_lit _ _ _ (mkscan true false 0)); [auto|]|apply IH].
    unfold scan_step. cbn. destruct (c =? 34) eqn:?, (c =? 39), (c =? 92) eqn:?; reflexivity || lia.
  - change (S (S (length (flat_map sitem_text body)))) with (1 + (1 + length (flat_map sitem_text body)))%nat.
    eapply nreach_trans; [apply (nreach_lit _ _ _ (mkscan true true 0)); auto|].
    eapply nreach_trans; [apply (nreach_lit _ _ _ (mkscan true false 0)); auto|apply IH].
Qed.

Lemma nreach_piece q p : flat_ok delims q -> nreach (length (piece_text q)) scan0 (piece_text q ++ p) scan0 p.
Proof.
  intros [c H1 H2 H3 H4|l Hl|c Hc|c]; cbn [piece_text app length].
  - apply nreach_step.
    + now rewrite (memb_not _ _ H3), (is_eol_not c p H4).
    + unfold scan_step, line_ender in *. cbn. destruct (c =? 34) eqn:?, (c =? 39) eqn:?, (c =? 92) eqn:?; reflexivity || lia.
  - rewrite app_length, <- app_assoc. cbn [length app].
    change (S (length (flat_map sitem_text l) + 1)) with (1 + (length (flat_map sitem_text l) + 1))%nat.
    eapply nreach_trans; [apply (nreach_lit _ _ _ (mkscan true false 0)); auto|].
    eapply nreach_trans; [apply nreach_str_body; assumption|]. apply nreach_lit; auto.
  - change 3%nat with (1 + (1 + 1))%nat.
    eapply nreach_trans; [apply (nreach_lit _ _ _ (mkscan false false 2)); auto|].
    eapply nreach_trans; [apply (nreach_lit _ _ _ (mkscan false false 1)); auto|].
    + unfold scan_step. cbn. destruct (c =? 34), (c =? 39), (c =? 92) eqn:?; reflexivity || lia.
    + apply nreach_lit; auto.
  - change 4%nat with (1 + (1 + (1 + 1)))%nat.
    eapply nreach_trans; [apply (nreach_lit _ _ _ (mkscan false false 2)); auto|].
    eapply nreach_trans; [apply (nreach_lit _ _ _ (mkscan false true 1)); auto|].
    eapply nreach_trans; [apply (nreach_lit _ _ _ (mkscan false false 1)); auto|].
    apply nreach_lit; auto.
Qed.

Lemma nreach_pieces l p : Forall (flat_ok delims) l ->
  nreach (length (pieces_text l)) scan0 (pieces_text l ++ p) scan0 p.
Proof.
  induction 1 as [|q l Hq _ IH]; [apply nreach_refl|].
  unfold pieces_text in *. cbn [flat_map]. rewrite app_length, <- app_assoc.
  eapply nreach_trans; [apply nreach_piece; assumption|exact IH].
Qed.

Lemma next_expr_pieces b l rest : Forall blank b -> Forall (flat_ok delims) l ->
  (l = [] \/ exists c t, pieces_text l = c :: t /\ ~ blank c /\ c <> 41) ->
  ends_at delims rest -> (l = [] -> is_eol rest = true) ->
  next_expr (b ++ pieces_text l ++ rest) delims = rest.
Proof.
  intros Hb Hl Hc Hr Hl0. unfold next_expr. rewrite skip_ws_app by assumption.
  destruct Hc as [->|(c & t & E & Hc & Hc41)].
  - specialize (Hl0 eq_refl). cbn [pieces_text flat_map app].
    assert (Hs : skip_ws rest = rest).
    { destruct rest as [|c t]; [reflexivity|]. apply skip_ws_nonblank.
      apply is_eol_cons in Hl0. unfold line_ender, blank in *. lia. }
    now rewrite Hs, Hl0.
  - assert (Hs : skip_ws (pieces_text l ++ rest) = pieces_text l ++ rest).
    { rewrite E. cbn [app]. now apply skip_ws_nonblank. }
    rewrite Hs.
    assert (He : is_eol (pieces_text l ++ rest) || (hd0 (pieces_text l ++ rest) =? 41) = false).
    { rewrite E. cbn [app]. destruct l as [|q l]; [discriminate|]. inversion Hl as [|? ? Hq _]; subst.
      assert (Hn : ~ line_ender c).
      { unfold pieces_text in E. cbn [flat_map] in E. inversion Hq; subst; cbn [piece_text app] in E; injection E; intros; subst;
          unfold line_ender in *; lia. }
      rewrite (is_eol_not c _ Hn). simpl. lia. }
    rewrite He.
    set (p := pieces_text l ++ rest).
    assert (Hf : exists f, (3 * length p + 5 = length (pieces_text l) + S f)%nat).
    { exists (3 * length p + 4 - length (pieces_text l))%nat. unfold p. rewrite app_length. lia. }
    destruct Hf as (f & ->).
    destruct (nreach_pieces l rest Hl (S f) p p) as (p2' & p1' & En). fold p in En. rewrite En.
    cbn [next_expr_loop]. destruct rest as [|x r]; [reflexivity|].
    destruct Hr as [Hr|(x' & r' & Er & Hr)]; [discriminate|]. injection Er as <- <-.
    replace (memb x delims || is_eol (x :: r)) with true; [reflexivity|].
    symmetry. apply orb_true_iff. destruct Hr as [Hr|Hr]; [left; now apply memb_In|right; now apply is_eol_cons].
Qed.
End NReach.

(** * Lines *)
Definition starts_lf (p : text) : Prop := exists t, p = 10 :: t.

(** A line break and the text after it. *)
Inductive broken : text -> text -> Prop :=
  | br_lf t : broken (10 :: t) t
  | br_crlf t : broken (13 :: 10 :: t) t
  | br_cr t : ~ starts_lf t -> broken (13 :: t) t
  | br_end : broken [] [].

Lemma skip_crlf_broken p t : broken p t -> skip_lf (skip_cr p) = t.
Proof.
  intros [u|u|u H|]; simpl; try reflexivity. destruct u as [|c u]; [reflexivity|]. simpl.
  destruct (c =? 10) eqn:E; [|reflexivity]. exfalso. apply H. exists u. f_equal. lia.
Qed.
Lemma skip_to_next_line_spec com p t : Forall (fun c => ~ line_break c) com -> broken p t ->
  skip_to_next_line (com ++ p) = t.
Proof.
  intros Hc Hb. unfold skip_to_next_line.
  assert (E : to_line_break (com ++ p) = p).
  { induction Hc as [|c com H _ IH]; simpl.
    - destruct Hb; reflexivity.
    - unfold line_break in H. replace ((c =? 10) || (c =? 13)) with false by lia. exact IH. }
  rewrite E. now apply skip_crlf_broken.
Qed.

(** The end of a code line and the code after it: a comment and a line break, a line break, or
    a backslash with or without one. *)
Inductive code_break : text -> text -> Prop :=
  | cb_comment com p t : Forall (fun c => ~ line_break c) com -> broken p t ->
      code_break (59 :: com ++ p) t
  | cb_line p t : broken p t -> code_break p t
  | cb_backslash_line p t : broken p t -> code_break (92 :: p) t
  | cb_backslash c t : ~ line_break c -> code_break (92 :: c :: t) (c :: t).

Lemma code_break_ends p t : code_break p t -> ends_at [92; 59; 13; 10] p /\ is_eol p = true.
Proof.
  intros [com q u _ _|q u H|q u _|c u _].
  - split; [|reflexivity]. right. exists 59. eexists. split; [reflexivity|]. simpl. auto.
  - destruct H; (split; [|reflexivity]); try (left; reflexivity); right; eexists _, _; (split; [reflexivity|]);
      right; unfold line_ender; lia.
  - split; [|reflexivity]. right. exists 92. eexists. split; [reflexivity|]. simpl. auto.
  - split; [|reflexivity]. right. exists 92. eexists. split; [reflexivity|]. simpl. auto.
Qed.
Lemma after_code_break p t : code_break p t ->
  (if hd0 p =? 59 then skip_to_next_line p
   else skip_lf (skip_cr (if hd0 p =? 92 then tl p else p))) = t.
Proof.
  intros [com q u Hc Hb|q u H|q u H|c u H].
  - cbn [hd0]. change (59 =? 59) with true. cbv iota. apply (skip_to_next_line_spec (59 :: com)); [|assumption].
    constructor; [unfold line_break; lia|assumption].
  - replace (hd0 q =? 59) with false by (destruct H; reflexivity).
    replace (hd0 q =? 92) with false by (destruct H; reflexivity). now apply skip_crlf_broken.
  - cbn [hd0 tl]. now apply skip_crlf_broken.
  - cbn [hd0 tl]. change (92 =? 59) with false. change (92 =? 92) with true. cbv iota. unfold line_break in H. simpl.
    replace (c =? 13) with false by lia. simpl. now replace (c =? 10) with false by lia.
Qed.

Lemma next_code_line_spec b l p t : Forall blank b -> Forall (flat_ok [92; 59; 13; 10]) l ->
  (l = [] \/ exists c u, pieces_text l = c :: u /\ ~ blank c /\ c <> 41) ->
  code_break p t -> next_code_line (b ++ pieces_text l ++ p) = t.
Proof.
  intros Hb Hl Hc Hp. destruct (code_break_ends _ _ Hp) as [E1 E2].
  unfold next_code_line. rewrite next_expr_pieces; auto.
  - now apply after_code_break.
  - simpl. lia.
Qed.

(** * skip_to_line_end *)
Definition value_sitem (i : sitem) : Prop :=
  match i with SC c => c <> 34 /\ c <> 92 /\ c <> 10 /\ c <> 13 | SE c => c <> 92 /\ c <> 10 /\ c <> 13 end.
Definition value_piece (q : piece) : Prop :=
  match q with
  | PChar c => c <> 34 /\ c <> 92 /\ c <> 10 /\ c <> 13 /\ c <> 59
  | PStr l => Forall value_sitem l
  | _ => False
  end.
Definition value_stop (p : text) : Prop :=
  p = [] \/ exists c t, p = c :: t /\ (c = 10 \/ c = 13 \/ c = 59).

Lemma skip_line_end_str l p : Forall value_sitem l ->
  skip_line_end false true (flat_map sitem_text l ++ p) = skip_line_end false true p.
Proof.
  induction 1 as [|i l Hi _ IH]; [reflexivity|].
  destruct i as [c|c]; cbn [flat_map sitem_text app skip_line_end value_sitem] in *.
  - replace (c =? 10) with false by lia. replace (c =? 13) with false by lia.
    replace (c =? 92) with false by lia. replace (c =? 34) with false by lia.
    rewrite andb_false_r. exact IH.
  - simpl. replace (c =? 10) with false by lia. replace (c =? 13) with false by lia.
    replace (c =? 92) with false by lia. rewrite !andb_false_r. exact IH.
Qed.
Lemma skip_line_end_pieces l p : Forall value_piece l -> value_stop p ->
  skip_to_line_end (pieces_text l ++ p) = p.
Proof.
  intros Hl Hp. unfold skip_to_line_end. induction Hl as [|q l Hq _ IH].
  - cbn [pieces_text flat_map app]. destruct Hp as [->|(c & t & -> & Hc)]; [reflexivity|].
    cbn [skip_line_end]. now replace ((c =? 10) || (c =? 13) || ((c =? 59) && negb false)) with true by lia.
  - unfold pieces_text in *. cbn [flat_map]. destruct q as [c|m| | |]; simpl in Hq; try contradiction.
    + cbn [piece_text app skip_line_end].
      replace ((c =? 10) || (c =? 13) || ((c =? 59) && negb false)) with false by lia.
      replace (c =? 92) with false by lia. replace (c =? 34) with false by lia. exact IH.
    + cbn [piece_text app]. cbn [skip_line_end]. change ((34 =? 10) || (34 =? 13) || (34 =? 59) && negb false) with false.
      change (34 =? 92) with false. change ((34 =? 34) && negb false) with true. cbv iota. change (negb false) with true.
      rewrite <- !app_assoc. rewrite skip_line_end_str by assumption. exact IH.
Qed.

(** * File names *)
Lemma before_last_spec c s : match before_last c s with
  | Some r => exists t, s = r ++ c :: t /\ ~ In c t
  | None => ~ In c s end.
Proof.
  induction s as [|x s IH]; simpl; [tauto|].
  destruct (before_last c s) as [r|].
  - destruct IH as (t & -> & Ht). exists t. auto.
  - destruct (x =? c) eqn:E.
    + exists s. simpl. split; [f_equal; lia|assumption].
    + intros [->|H]; [lia|contradiction].
Qed.
