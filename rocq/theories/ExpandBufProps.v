(** The growable text buffer: C24. *)
From Verif Require Import Base BaseProofs ExpandBufModel.

(** The buffer holds text [t]. *)
Definition holds (b : ebuf) (t : list Z) : Prop :=
  eb_end b = length t /\ exists spare, eb_cells b = map Some t ++ spare.

Lemma store_mid a x b v : store (a ++ x :: b) (length a) v = Some (a ++ v :: b).
Proof. induction a as [|y a IH]; simpl; [reflexivity|]. now rewrite IH. Qed.
Lemma cell_mid a x b : cell (a ++ x :: b) (length a) = Some x.
Proof. unfold cell. rewrite nth_error_app2, Nat.sub_diag; [reflexivity|lia]. Qed.

Lemma eb_grow_ok : forall fuel size need, (1 <= size)%nat -> (need <= size * 2 ^ (fuel - 1))%nat -> (1 <= fuel)%nat ->
  exists size', eb_grow fuel size need = Some size' /\ (need <= size')%nat /\ (size <= size')%nat.
Proof.
  induction fuel as [|f IH]; intros size need H1 H2 H3; [lia|]. simpl.
  destruct (Nat.leb_spec need size); [exists size; auto|].
  destruct f as [|f]; [simpl in H2; lia|].
  destruct (IH (2 * size)%nat need) as (s' & E & Ha & Hb); [lia| |lia|].
  - replace (S f - 1)%nat with f by lia. replace (S (S f) - 1)%nat with (S f) in H2 by lia. cbn [Nat.pow] in H2. nia.
  - exists s'. simpl in E. simpl. rewrite E. repeat split; lia.
Qed.

(** Moving the middle part [m] up by the length of the gap. *)
Lemma eb_shift_ok : forall n a m gap rest len, length m = n -> (n + length gap = len + n)%nat ->
  exists junk, eb_shift (a ++ m ++ gap ++ rest) (length a) n len = Some (a ++ junk ++ m ++ rest) /\ length junk = len.
Proof.
  intros n. induction n as [|n IH]; intros a m gap rest len Hm Hg.
  - destruct m; [|discriminate]. exists gap. split; [reflexivity|lia].
  - destruct (exists_last (l := m)) as (m' & x & ->); [intros ->; discriminate|].
    rewrite app_length in Hm. simpl in Hm.
    cbn [eb_shift].
    replace (a ++ (m' ++ [x]) ++ gap ++ rest) with ((a ++ m') ++ x :: gap ++ rest) by now rewrite <- !app_assoc.
    replace (length a + n)%nat with (length (a ++ m')) by (rewrite app_length; lia).
    rewrite cell_mid.
    (* the gap, shifted: x moves to its end *)
    destruct (exists_last (l := x :: gap)) as (g' & y & Eg); [discriminate|].
    assert (Lg : length g' = len). { apply (f_equal (@length _)) in Eg. rewrite app_length in Eg. simpl in Eg. lia. }
    replace ((a ++ m') ++ x :: gap ++ rest) with (((a ++ m') ++ g') ++ y :: rest).
    2:{ change (x :: gap ++ rest) with ((x :: gap) ++ rest). rewrite Eg. now rewrite <- !app_assoc. }
    replace (length (a ++ m') + len)%nat with (length ((a ++ m') ++ g')) by (rewrite (app_length _ g'); lia).
    rewrite store_mid. destruct (IH a m' g' (x :: rest) len) as (junk & E & Hj); [lia|lia|].
    exists junk. split; [|exact Hj].
    replace (((a ++ m') ++ g') ++ x :: rest) with (a ++ m' ++ g' ++ x :: rest) by now rewrite <- !app_assoc.
    rewrite E. now rewrite <- !app_assoc.
Qed.

(** What strncpy writes. *)
Definition copied (t : list Z) (n : nat) : list Z := firstn n t ++ repeat 0 (n - length t).
Lemma copied_length t n : length (copied t n) = n.
Proof. unfold copied. rewrite app_length, firstn_length, repeat_length. lia. Qed.
Lemma copied_S t n : copied t (S n) = (match t with c :: _ => c | [] => 0 end) :: copied (tl t) n.
Proof. destruct t as [|c t]; unfold copied; simpl; [|reflexivity]. rewrite firstn_nil, Nat.sub_0_r. reflexivity. Qed.
Lemma eb_strncpy_ok : forall n t a old rest, length old = n ->
  eb_strncpy (a ++ old ++ rest) (length a) t n = Some (a ++ map Some (copied t n) ++ rest).
Proof.
  induction n as [|n IH]; intros t a old rest H.
  - destruct old; [|discriminate]. unfold copied. simpl. reflexivity.
  - destruct old as [|o old]; [discriminate|]. cbn [eb_strncpy]. rewrite copied_S.
    destruct t as [|c t]; cbn [app tl map]; rewrite store_mid.
    + replace (a ++ Some 0 :: old ++ rest) with ((a ++ [Some 0]) ++ old ++ rest) by now rewrite <- app_assoc.
      replace (S (length a)) with (length (a ++ [Some 0])) by (rewrite app_length; simpl; lia).
      rewrite IH by (simpl in H; lia). now rewrite <- app_assoc.
    + replace (a ++ Some c :: old ++ rest) with ((a ++ [Some c]) ++ old ++ rest) by now rewrite <- app_assoc.
      replace (S (length a)) with (length (a ++ [Some c])) by (rewrite app_length; simpl; lia).
      rewrite IH by (simpl in H; lia). now rewrite <- app_assoc.
Qed.

Definition insert_len (t : list Z) (len : option nat) : nat := match len with None => length t | Some n => n end.
Lemma eb_insert_ok b old off t len : holds b old ->
  let o := match off with None => length old | Some o => o end in
  (o <= length old)%nat -> (0 < insert_len t len)%nat ->
  exists b', eb_insert b off t len =
      Some (b', (match off with None => -1 | Some o => Z.of_nat o end) + Z.of_nat (insert_len t len)) /\
    holds b' (firstn o old ++ copied t (insert_len t len) ++ skipn o old).
Proof.
  intros (He & spare & Hc) o Ho Hl. unfold eb_insert. fold (insert_len t len).
  set (n := insert_len t len) in *. rewrite He. replace (n =? 0)%nat with false by (symmetry; apply Nat.eqb_neq; lia).
  set (size := length (eb_cells b)). set (need := (length old + n)%nat).
  assert (Hsz : exists size', (if (size <? need)%nat
           then eb_grow (S need) (if (size =? 0)%nat then 1%nat else size) need else Some size) = Some size' /\
           (need <= size')%nat /\ (size <= size')%nat).
  { destruct (Nat.ltb_spec size need) as [Hn|Hn]; [|exists size; auto].
    destruct (eb_grow_ok (S need) (if (size =? 0)%nat then 1%nat else size) need) as (s' & E & Ha & Hb).
    - destruct (Nat.eqb_spec size 0); lia.
    - replace (S need - 1)%nat with need by lia. assert (need < 2 ^ need)%nat by (apply Nat.pow_gt_lin_r; lia).
      destruct (Nat.eqb_spec size 0); nia.
    - lia.
    - exists s'. split; [exact E|]. split; [exact Ha|]. destruct (Nat.eqb_spec size 0); lia. }
  destruct Hsz as (size' & -> & Hneed & Hle).
  assert (Hlen : (length old + length spare = size)%nat).
  { unfold size. rewrite Hc, app_length, map_length. reflexivity. }
  assert (Hcells : exists gap rest, eb_cells b ++ repeat None (size' - size) = map Some old ++ gap ++ rest /\ length gap = n).
  { rewrite Hc, <- app_assoc. exists (firstn n (spare ++ repeat None (size' - size))), (skipn n (spare ++ repeat None (size' - size))).
    rewrite firstn_skipn. split; [reflexivity|]. rewrite firstn_length, app_length, repeat_length. unfold need in *. lia. }
  destruct Hcells as (gap & rest & -> & Hgap).
  assert (Hsplit : map (@Some Z) old = map Some (firstn o old) ++ map Some (skipn o old)) by (rewrite <- map_app, firstn_skipn; reflexivity).
  assert (Lo : length (map (@Some Z) (firstn o old)) = o) by (rewrite map_length, firstn_length; lia).
  assert (Hshift : exists junk, (if (o <? length old)%nat
      then eb_shift (map Some old ++ gap ++ rest) o (length old - o) n else Some (map Some old ++ gap ++ rest)) =
      Some (map Some (firstn o old) ++ junk ++ map Some (skipn o old) ++ rest) /\ length junk = n).
  { destruct (Nat.ltb_spec o (length old)) as [Hn|Hn].
    - rewrite Hsplit, <- app_assoc.
      destruct (eb_shift_ok (length old - o) (map Some (firstn o old)) (map Some (skipn o old)) gap rest n) as (junk & E & Hj).
      + rewrite map_length, skipn_length. reflexivity.
      + lia.
      + exists junk. rewrite Lo in E. split; [exact E|exact Hj].
    - exists gap. split; [|exact Hgap]. rewrite Hsplit. rewrite skipn_all2 by lia. simpl. now rewrite app_nil_r. }
  fold o. destruct Hshift as (junk & -> & Hj).
  pose proof (eb_strncpy_ok n t (map Some (firstn o old)) junk (map Some (skipn o old) ++ rest) Hj) as E.
  rewrite Lo in E. rewrite E. eexists. split; [reflexivity|]. split.
  - simpl. unfold need. rewrite !app_length, copied_length, firstn_length, skipn_length. lia.
  - exists rest. simpl. rewrite !map_app, <- !app_assoc. reflexivity.
Qed.

Lemma copied_whole t len : (insert_len t len <= length t)%nat -> copied t (insert_len t len) = firstn (insert_len t len) t.
Proof. intros H. unfold copied. replace (insert_len t len - length t)%nat with 0%nat by lia. apply app_nil_r. Qed.

Lemma eb_read_ok : forall t spare, Forall (fun c => c <> 0) t -> eb_read (map Some t ++ spare) (length t) = Some t.
Proof.
  induction t as [|c t IH]; intros spare H; [now destruct spare|]. inversion H; subst. simpl.
  replace (c =? 0) with false by lia. now rewrite IH.
Qed.

(** A sequence of insertions. *)
Fixpoint inserts (b : ebuf) (l : list (option nat * list Z * option nat)) : option ebuf :=
  match l with
  | [] => Some b
  | (off, t, len) :: l' => match eb_insert b off t len with Some (b', _) => inserts b' l' | None => None end
  end.
Definition splice (old : list Z) (x : option nat * list Z * option nat) : list Z :=
  let '(off, t, len) := x in
  let o := match off with None => length old | Some o => o end in
  firstn o old ++ firstn (insert_len t len) t ++ skipn o old.
Fixpoint fits (old : list Z) (l : list (option nat * list Z * option nat)) : Prop :=
  match l with
  | [] => True
  | (off, t, len) :: l' =>
    (match off with None => O | Some o => o end <= length old)%nat /\ (insert_len t len <= length t)%nat /\
    fits (splice old (off, t, len)) l'
  end.

Lemma inserts_ok : forall l b old, holds b old -> fits old l ->
  exists b', inserts b l = Some b' /\ holds b' (fold_left splice l old).
Proof.
  induction l as [|[[off t] len] l IH]; intros b old Hb Hf.
  - exists b. auto.
  - destruct Hf as (H1 & H2 & H3). cbn [inserts fold_left].
    destruct (Nat.eq_dec (insert_len t len) 0) as [Hz|Hz].
    + unfold eb_insert. fold (insert_len t len). rewrite Hz. cbn [Nat.eqb].
      assert (Es : splice old (off, t, len) = old). { unfold splice. rewrite Hz. simpl. apply firstn_skipn. }
      rewrite Es in *. now apply IH.
    + destruct (eb_insert_ok b old off t len Hb) as (b' & E & Hb'); [destruct off; lia|lia|].
      rewrite E. apply IH; [|exact H3]. rewrite copied_whole in Hb' by exact H2. exact Hb'.
Qed.

(** C24.  Any sequence of insertions and appends, each at a position within the text, on a
    buffer of any initial size, never touches memory outside the buffer and leaves exactly
    the text with each piece spliced in; extracting it returns that text, provided it has
    no NUL.  A single insertion of something returns the position after it. *)
Theorem c24_growable_buffer :
  (forall size l, fits [] l ->
     exists b, inserts (eb_init size) l = Some b /\
       (Forall (fun c => c <> 0) (fold_left splice l []) -> eb_extract b = Some (fold_left splice l [])) /\
       (forall i c, nth_error (fold_left splice l []) i = Some c -> eb_get_char b i = Some c)) /\
  (forall size l b off t len, fits [] (l ++ [(Some off, t, len)]) -> inserts (eb_init size) l = Some b ->
     (0 < insert_len t len)%nat ->
     exists b', eb_insert b (Some off) t len = Some (b', Z.of_nat off + Z.of_nat (insert_len t len))).
Proof.
  assert (H0 : forall size, holds (eb_init size) []) by (intros size; split; [reflexivity|eexists; reflexivity]).
  split.
  - intros size l Hf. destruct (inserts_ok l (eb_init size) [] (H0 size) Hf) as (b & E & He & spare & Hc).
    exists b. split; [exact E|]. split.
    + intros Hn. unfold eb_extract. rewrite He, Hc. now apply eb_read_ok.
    + intros i c Hi. unfold eb_get_char, cell. rewrite Hc, nth_error_app1.
      * now rewrite (map_nth_error Some i _ Hi).
      * rewrite map_length. apply nth_error_Some. congruence.
  - intros size l b off t len Hf E Hl.
    assert (G : forall l0 old b0, holds b0 old -> fits old (l0 ++ [(Some off, t, len)]) -> inserts b0 l0 = Some b ->
              exists b', eb_insert b (Some off) t len = Some (b', Z.of_nat off + Z.of_nat (insert_len t len))).
    { clear l Hf E. induction l0 as [|[[off0 t0] len0] l0 IH]; intros old b0 Hb Hf E.
      - injection E; intros; subst. cbn [app fits] in Hf. destruct (eb_insert_ok b old (Some off) t len Hb) as (b' & E' & _); [lia|lia|].
        exists b'. exact E'.
      - cbn [app fits] in Hf. destruct Hf as (F1 & F2 & F3). cbn [inserts] in E.
        destruct (inserts_ok [(off0, t0, len0)] b0 old Hb) as (b1 & E1 & Hb1); [cbn [fits]; auto|].
        cbn [inserts] in E1. destruct (eb_insert b0 off0 t0 len0) as [[b2 z]|]; [|discriminate].
        injection E1; intros; subst b2. apply (IH (splice old (off0, t0, len0)) b1); assumption. }
    exact (G l [] (eb_init size) (H0 size) Hf E).
Qed.
(* two appends, an insertion in the middle, into a buffer of size zero *)
Example c24_case :
  let l := [(None, zs "hello", None); (None, zs "!?", Some 1%nat); (Some 2%nat, zs "XY", None)] in
  fits [] l /\ match inserts (eb_init (Some 0%nat)) l with Some b => eb_extract b = Some (zs "heXYllo!") | None => False end.
Proof. simpl. split; [repeat split; lia|reflexivity]. Qed.

(** The value returned is wrong when nothing is inserted: 0 instead of the offset. *)
Theorem c24_empty_insert_refuted : exists b off, holds b (zs "abc") /\ off = 2%nat /\
  eb_insert b (Some off) [] None = Some (b, 0).
Proof.
  exists (mkebuf (map Some (zs "abc")) 3), 2%nat. split; [split; [reflexivity|exists []; reflexivity]|]. split; reflexivity.
Qed.

(** Overwriting within the text replaces exactly those characters. *)
Theorem c24_overwrite : forall b old off t, holds b old -> (off + length t <= length old)%nat ->
  exists b', eb_overwrite b off t None = Some b' /\
    holds b' (firstn off old ++ t ++ skipn (off + length t) old).
Proof.
  intros b old off t (He & spare & Hc) H. unfold eb_overwrite.
  assert (E : eb_cells b = map Some (firstn off old) ++ map Some (firstn (length t) (skipn off old)) ++ (map Some (skipn (off + length t) old) ++ spare)).
  { rewrite Hc, !app_assoc, <- !map_app. do 2 f_equal. rewrite <- app_assoc.
    rewrite <- (firstn_skipn off old) at 1. f_equal. rewrite <- (firstn_skipn (length t) (skipn off old)) at 1. f_equal.
    now rewrite skipn_plus. }
  assert (L : length (map (@Some Z) (firstn off old)) = off) by (rewrite map_length, firstn_length; lia).
  rewrite E. pose proof (eb_strncpy_ok (length t) t (map Some (firstn off old)) (map Some (firstn (length t) (skipn off old)))
                           (map Some (skipn (off + length t) old) ++ spare)) as S.
  rewrite L in S. rewrite S.
  - eexists. split; [reflexivity|]. split; simpl.
    + rewrite He, !app_length, firstn_length, skipn_length. lia.
    + exists spare. unfold copied. rewrite firstn_all, Nat.sub_diag, app_nil_r, !map_app, <- !app_assoc. reflexivity.
  - rewrite map_length, firstn_length, skipn_length. lia.
Qed.
Example c24_overwrite_case : holds (mkebuf (map Some (zs "abcdef")) 6) (zs "abcdef").
Proof. split; [reflexivity|exists []; reflexivity]. Qed.

(** Erasing is wrong in general: only as many bytes move down as are erased. *)
Theorem c24_erase_refuted : exists b b', holds b (zs "abc") /\ eb_erase b 0 1 = Some b' /\
  eb_extract b' = Some (zs "bb").
Proof.
  exists (mkebuf (map Some (zs "abc")) 3). eexists. split; [split; [reflexivity|exists []; reflexivity]|]. split; reflexivity.
Qed.

Print Assumptions c24_growable_buffer.
Print Assumptions c24_empty_insert_refuted.
Print Assumptions c24_overwrite.
Print Assumptions c24_erase_refuted.
