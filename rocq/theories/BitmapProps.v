(** Properties of bitmap import: C43. *)
From Verif Require Import Base BaseProofs State UtilsModel ErrorsModel StorageModel ParserModel PassTwoModel BitmapModel Knot MainModel MonadProofs
  UtilsSpec UtilsProofs PassTwoSpec PassTwoProofs StorageProofs ParserSpec ParserProofs ParserProps DefineProofs DefineProps BitmapSpec ShadeProofs BitmapProofs BitmapRun Validate Programs AsmProps.

Local Notation flag := BitmapRun.flag.
Lemma like_sess s s1 : like s s1 -> sessions_ok s -> sessions_ok s1.
Proof. intros L H. apply like_fields in L as (_ & _ & _ & _ & E1 & E2 & _). unfold sessions_ok. now rewrite E1, E2. Qed.
Lemma parse_f_value R t s v : sessions_ok s ->
  (forall s', s' = set_sess (s_sess s + 1) s -> parse_num R t s' = Ok (Some v) (set_depth 0 (set_fwd false s'))) ->
  parse_f R t s = Ok v (set_depth 0 (set_fwd false s)).
Proof.
  intros Hs H. destruct (lead_none _ _ Hs) as (L1 & L2). unfold parse_f, start_session. rewrite bind_assoc, bind_get, bind_assoc, bind_upd, bind_ret.
  rewrite (bind_ok _ _ _ _ _ (H _ eq_refl)). rewrite bind_get. unfold end_session. cbn [s_errs set_depth set_fwd set_sess]. unfold sess_fatal. rewrite L1. cbn [existsb].
  rewrite bind_assoc, bind_get, bind_assoc, bind_get, bind_assoc, bind_upd, bind_assoc, bind_upd. cbn [s_errs s_sess set_depth set_fwd set_sess set_errs]. rewrite L1, L2. cbn [existsb]. rewrite andb_false_r.
  unfold ret, bind. f_equal. cbn. rewrite Z.add_simpl_r. destruct s; reflexivity.
Qed.
Lemma parse_f_unknown R t s d : sessions_ok s ->
  (forall s', s' = set_sess (s_sess s + 1) s -> parse_num R t s' = Ok None (noted false 262 (set_depth d (set_fwd true s')))) ->
  parse_f R t s = Ok (-1) (set_depth d (set_fwd true s)).
Proof.
  intros Hs H. destruct (lead_none _ _ Hs) as (L1 & L2). unfold parse_f, start_session. rewrite bind_assoc, bind_get, bind_assoc, bind_upd, bind_ret.
  rewrite (bind_ok _ _ _ _ _ (H _ eq_refl)). rewrite bind_get. unfold end_session. 
  rewrite bind_assoc, bind_get, bind_assoc, bind_get, bind_assoc, bind_upd, bind_assoc, bind_upd. unfold noted. cbn [s_errs s_sess set_depth set_fwd set_sess set_errs sess_fatal lead unlead e_sess].
  rewrite Z.eqb_refl, L1, L2. cbn [existsb e_code]. change (is_fatal 262) with false. cbn [orb]. rewrite andb_false_r.
  replace (if sess_fatal _ _ then -1 else -1) with (-1) by (destruct (sess_fatal _ _); reflexivity).
  unfold ret, bind. f_equal. cbn. rewrite Z.add_simpl_r. destruct s; reflexivity.
Qed.
Lemma calm_fwd s d f : calm s (set_depth d (set_fwd f s)). Proof. unfold calm. destruct s; reflexivity. Qed.

(** ** Settings *)
Definition undefined (C : cfg) (s : st) (name : text) : Prop :=
  find_arg (key C name) (s_args s) = None /\ tfind (key C name) (s_labels s) = None /\ tfind (key C name) (s_defines s) = None.
Definition lone (name : text) : expr := Single (Leaf NoSign (Name name)).
Lemma writes_lone name : name_ok name -> writes (lone name) name.
Proof. intros H. constructor. change name with (sign_text NoSign ++ [] ++ atom_text (Name name)) at 2. constructor; [exact H|constructor|reflexivity]. Qed.
Lemma setting_undefined C n s name : name_ok name -> (0 < n)%nat -> sessions_ok s -> undefined C s name -> setting (knot C n) s name (-1).
Proof.
  intros Hn Hf Hs (U1 & U2 & U3) s1 L. pose proof (like_fields _ _ L) as (Fa & Fd & Fl & _).
  assert (H : exists d, forall s', s' = set_sess (s_sess s1 + 1) s1 -> parse_num (knot C n) name s' = Ok None (noted false 262 (set_depth d (set_fwd true s')))).
  { pose proof (c01_left_to_right C n (set_sess (s_sess s1 + 1) s1) (fun _ => None) (lone name) name [] [] [] (writes_lone name Hn) (Forall_nil _) (Forall_nil _) (or_introl eq_refl)) as H.
    cbn [app] in H. rewrite app_nil_r in H. cbv zeta in H. change (value _ _ (fun _ => None) (lone name)) with (Err 262) in H. cbv iota in H.
    destruct H as (d & H); [cbn; lia|cbn; lia| |exists d; intros s' ->; exact H].
    intros m Hm. cbn in Hm. subst m. split; [cbn [s_args set_sess]; now rewrite Fa|]. cbn [s_labels s_defines set_sess]. now rewrite Fl, Fd. }
  destruct H as (d & H). eexists. split; [apply (parse_f_unknown _ _ _ d); [exact (like_sess _ _ L Hs)|exact H]|apply calm_fwd].
Qed.
Lemma meaning_more C s name k v b : meaning C s name k v -> meaning C (set_sess b s) name k v.
Proof. induction 1; [now apply M_label|]. eapply M_define; eauto. Qed.
Lemma setting_meaning C n s name k v : name_ok name -> s_erroc s = false -> sessions_ok s -> (k <= 19)%nat -> (k < n)%nat ->
  (forall s1, like s s1 -> meaning C s1 name k v) -> setting (knot C n) s name v.
Proof.
  intros Hn He Hs Hk Hf M s1 L. pose proof (like_fields _ _ L) as (_ & _ & _ & _ & _ & _ & Fe).
  eexists. split; [|apply calm_fwd]. apply parse_f_value; [exact (like_sess _ _ L Hs)|]. intros s' ->.
  pose proof (c50_defined_names C n (set_sess (s_sess s1 + 1) s1) (fun _ => Some v) (fun _ => k) (lone name) name [] [] [] (writes_lone name Hn) (Forall_nil _) (Forall_nil _) (or_introl eq_refl)) as H.
  cbn [app] in H. rewrite app_nil_r in H. cbv zeta in H. change (value _ _ (fun _ => Some v) (lone name)) with (Val v) in H. cbv iota in H. apply H.
  - cbn [s_erroc set_sess]. now rewrite Fe.
  - unfold sessions_ok. cbn [s_errs s_sess set_sess]. eapply Forall_impl; [|exact (like_sess _ _ L Hs)]. cbn. intros; lia.
  - exact Hk.
  - exact Hf.
  - intros m Hm. cbn in Hm. subst m. right. exists v. split; [reflexivity|]. apply meaning_more. now apply M.
Qed.
(** A symbol defined as a number. *)
Definition numbered (C : cfg) (s : st) (name : text) (l : literal) : Prop :=
  find_arg (key C name) (s_args s) = None /\ tfind (key C name) (s_labels s) = None /\ key C name <> zs "__LINE" /\ key C name <> zs "__FILE" /\
  (exists d, tfind (key C name) (s_defines s) = Some d /\ d_args d = [] /\ d_contents d = Some (literal_text l)) /\
  literal_ok l /\ literal_number l <= 4294967295.
Definition number_of (l : literal) : Z := signed32 (literal_number l).
Lemma literal_plain l : literal_ok l -> Forall plain_char (literal_text l).
Proof.
  assert (D : forall b c, digit_of b c -> plain_char c).
  { intros b c (d & E & _). unfold digit_value in E. unfold plain_char. cbn.
    destruct ((48 <=? c) && (c <=? 57)) eqn:A; [lia|]. destruct ((65 <=? c) && (c <=? 70)) eqn:B; [lia|]. destruct ((97 <=? c) && (c <=? 102)) eqn:F; [lia|discriminate]. }
  intros (_ & F & X). assert (G : Forall plain_char (literal_digits l)) by (eapply Forall_impl; [|exact F]; apply D).
  assert (P : forall c, In c [36; 37; 72; 104; 66; 98; 68; 100] -> plain_char c) by (intros c H; cbn in H; unfold plain_char; cbn; lia).
  destruct l; cbn [literal_text literal_digits] in *; try exact G; try (apply Forall_cons; [apply P; cbn; tauto|exact G]);
    (apply Forall_app; split; [exact G|]); (apply Forall_cons; [|apply Forall_nil]); apply P; cbn; lia.
Qed.
Lemma setting_number C n s name l : name_ok name -> s_erroc s = false -> sessions_ok s -> (1 < n)%nat -> numbered C s name l -> setting (knot C n) s name (number_of l).
Proof.
  intros Hn He Hs Hf (Na & Nl & NL & NF & (d & Nd & Nda & Ndc) & Ok1 & Nb). apply (setting_meaning C n s name 1); auto; [lia|].
  intros s1 L. pose proof (like_fields _ _ L) as (Fa & Fd & Fl & _).
  apply (M_define C s1 name (RG (key C name)) d [] (literal_text l) [] (Single (Leaf NoSign (Num l))) (fun _ => 0%nat) (fun _ => 0)); auto.
  - right. rewrite Fa, Fl. auto.
  - cbn [lookup_ref]. congruence.
  - cbn [app]. now rewrite app_nil_r.
  - constructor. change (literal_text l) with (sign_text NoSign ++ [] ++ atom_text (Num l)). constructor; [exact Ok1|constructor|reflexivity].
  - now apply literal_plain.
  - intros m [].
  - cbn. replace (literal_number l <=? 4294967295) with true by lia. reflexivity.
Qed.
Lemma flag_missing C n s name v : find_arg (key C name) (s_args s) = None -> tfind (key C name) (s_defines s) = None -> flag C (knot C n) s name v false.
Proof.
  intros Ha Hd s1 L. pose proof (like_fields _ _ L) as (Fa & Fd & _). exists s1. split; [|apply calm_refl]. unfold define_with_value.
  rewrite (bind_ok _ _ _ _ _ (search_none C name s1 ltac:(now rewrite Fa) ltac:(now rewrite Fd))). reflexivity.
Qed.
Lemma flag_number C n s name l v : sessions_ok s -> (0 < n)%nat -> numbered C s name l -> flag C (knot C n) s name v (number_of l =? v).
Proof.
  intros Hs Hf (Na & Nl & NL & NF & (d & Nd & Nda & Ndc) & Ok1 & Nb) s1 L. pose proof (like_fields _ _ L) as (Fa & Fd & Fl & _).
  eexists. split; [|apply calm_fwd]. unfold define_with_value.
  assert (Es : search_defines C name true s1 = Ok (Some (RG (key C name))) s1).
  { unfold search_defines. rewrite !bind_get. rewrite Fa, Fd, Na, Nd. apply eqbl_neq in NL. apply eqbl_neq in NF. rewrite NL, NF. reflexivity. }
  rewrite (bind_ok _ _ _ _ _ Es). rewrite (bind_ok _ _ s1 d s1) by (apply get_define_ok; cbn; now rewrite Fd). rewrite Ndc.
  rewrite (bind_ok _ _ _ (number_of l) (set_depth 0 (set_fwd false s1))); [reflexivity|]. apply parse_f_value; [exact (like_sess _ _ L Hs)|]. intros s' ->.
  pose proof (c03_literal_value C n (set_sess (s_sess s1 + 1) s1) l [] [] [] Ok1 (Forall_nil _) (Forall_nil _) (or_introl eq_refl) Hf Nb) as (H & _).
  cbn [app] in H. rewrite app_nil_r in H. exact H.
Qed.

(** ** C43 *)
(** The bytes: the bit planes of the picture, and the mask if there is one; in strips if the picture is
    wider than __BM_MIN_W.  No label stands directly before the bitmap. *)
Theorem c43_bytes C n p x g s pad : picture_ok p -> extras_ok p x -> small p -> (1 <= g_planes g <= 6)%nat -> clear p g -> modest p g ->
  configured C (knot C n) s g -> setting (knot C n) s (zs "__BM_PAD") pad -> no_map C s -> flag C (knot C n) s (zs "__BM_HDR") 1 false ->
  (forall k, s_last_label s = Some k -> exists l, tfind k (s_labels s) = Some l /\ u32 (l_value l) <> s_pc s) ->
  counted s -> room (zlen (whole p g)) s ->
  exists s', handle_bitmap C (knot C n) (bmp_file p x) s = Ok tt s' /\ wrote (whole p g) s s'.
Proof.
  intros Hp Hx Hs Hk Hcl Hmo Hg Hpad Hmap Hh Hl Hc Hr. apply (handle_is C (knot C n) p x g s s pad); auto.
  - exact (proj1 Hg).
  - intros k E. destruct (Hl k E) as (l & -> & _). discriminate.
  - intros s0 K. exists s0. split; [|exact K]. assert (T : title s = None).
    { unfold title. destruct (s_last_label s) as [k|]; [|reflexivity]. destruct (Hl k eq_refl) as (l & -> & N). apply Z.eqb_neq in N. now rewrite N. }
    rewrite T. reflexivity.
Qed.
Print Assumptions c43_bytes.

(** A label that stands directly before the bitmap gets two companions with the size of the picture. *)
Definition with_label (C : cfg) (name : text) (v : Z) (s : st) : st :=
  set_labels (tset (key C name) (mklabel (key C name) (s_line s) (s_file s) v) (s_labels s)) s.
Definition fresh (C : cfg) (s : st) (name : text) : Prop := undefined C s name /\ key C name <> zs "__LINE" /\ key C name <> zs "__FILE".
Lemma add_fresh C name v s : c_counter C = false -> fresh C s name -> add_label C name v s = Ok (Some (key C name)) (with_label C name v s).
Proof.
  intros Hc ((U1 & U2 & U3) & NL & NF). unfold add_label. rewrite Hc.
  rewrite (bind_ok _ _ s None s); [|apply search_none; now rewrite key_idem]. rewrite bind_get, U2. reflexivity.
Qed.
Theorem c43_labels C n p x g s pad name k l : picture_ok p -> extras_ok p x -> small p -> (1 <= g_planes g <= 6)%nat -> clear p g -> modest p g ->
  s_last_label s = Some k -> tfind k (s_labels s) = Some l -> u32 (l_value l) = s_pc s -> l_name l = name ->
  c_counter C = false -> fresh C s (name ++ zs "_WIDTH") ->
  let sw := with_label C (name ++ zs "_WIDTH") (Z.of_nat (p_width p)) s in
  fresh C sw (name ++ zs "_HEIGHT") ->
  let s1 := with_label C (name ++ zs "_HEIGHT") (zlen (p_rows p)) sw in
  configured C (knot C n) s1 g -> setting (knot C n) s (zs "__BM_PAD") pad -> setting (knot C n) s (zs "__BM_MIN_W") (g_min g) -> no_map C s -> flag C (knot C n) s1 (zs "__BM_HDR") 1 false ->
  counted s -> room (zlen (whole p g)) s ->
  exists s', handle_bitmap C (knot C n) (bmp_file p x) s = Ok tt s' /\ wrote (whole p g) s1 s'.
Proof.
  intros Hp Hx Hs Hk Hcl Hmo Hl Ht Hv Hn Hcc Hf1 sw Hf2 s1 Hg Hpad Hmin Hmap Hh Hc Hr. apply (handle_is C (knot C n) p x g s s1 pad); auto.
  - intros k0 E. congruence.
  - intros s0 K. assert (T : title s = Some name). { unfold title. rewrite Hl, Ht, Hv, Z.eqb_refl. now rewrite Hn. }
    pose proof (like_fields _ _ (calm_like _ _ K)) as (Fa & Fd & Fl & _).
    assert (G1 : fresh C s0 (name ++ zs "_WIDTH")) by (unfold fresh, undefined in *; now rewrite Fa, Fd, Fl).
    exists (with_label C (name ++ zs "_HEIGHT") (zlen (p_rows p)) (with_label C (name ++ zs "_WIDTH") (Z.of_nat (p_width p)) s0)). split.
    + unfold titled. rewrite T. unfold label_with. rewrite bind_assoc. rewrite (bind_ok _ _ _ _ _ (add_fresh C _ _ s0 Hcc G1)), bind_ret.
      assert (G2 : fresh C (with_label C (name ++ zs "_WIDTH") (Z.of_nat (p_width p)) s0) (name ++ zs "_HEIGHT")).
      { unfold fresh, undefined, sw, with_label in *. cbn [s_labels s_args s_defines s_line s_file set_labels] in *. rewrite K. exact Hf2. }
      rewrite (bind_ok _ _ _ _ _ (add_fresh C _ _ _ Hcc G2)). reflexivity.
    + unfold calm, s1, sw, with_label. rewrite K. reflexivity.
Qed.
Print Assumptions c43_labels.

(** The values of the settings. *)
Theorem c43_settings C n s name : name_ok name -> s_erroc s = false -> sessions_ok s -> (1 < n)%nat ->
  (undefined C s name -> setting (knot C n) s name (-1) /\ forall v, flag C (knot C n) s name v false) /\
  (forall l, numbered C s name l -> setting (knot C n) s name (number_of l) /\ forall v, flag C (knot C n) s name v (number_of l =? v)).
Proof.
  intros Hn He Hs Hf. split; [|intros l]; intros H; (split; [|intros v]).
  - apply setting_undefined; auto; lia.
  - apply flag_missing; apply H.
  - now apply setting_number.
  - apply flag_number; auto; lia.
Qed.
Print Assumptions c43_settings.

(** The size of the output, when the picture is not cut into strips: each plane and the mask take a whole
    number of bytes for every row. *)
Lemma flat_len {A B} (f : A -> list B) m l : (forall a, In a l -> length (f a) = m) -> length (flat_map f l) = (length l * m)%nat.
Proof. induction l as [|a l IH]; intros H; [reflexivity|]. cbn. rewrite app_length, H by now left. rewrite IH by (intros; apply H; now right). reflexivity. Qed.
Lemma bytes_of_len m : forall l, length (bytes_of m l) = m. Proof. induction m as [|m IH]; intros l; [reflexivity|]. cbn. now rewrite IH. Qed.
Theorem c43_size p g : picture_ok p -> g_min g <= 0 \/ Z.of_nat (p_width p) <= g_min g ->
  length (whole p g) = ((g_planes g + (if g_mask g then 1 else 0)) * length (p_rows p) * ((Nat.max (p_width p) (Z.to_nat (g_min g)) + 7) / 8))%nat.
Proof.
  intros Hp Hg. unfold whole. cbv zeta. replace ((0 <? g_min g) && (g_min g <? Z.of_nat (p_width p))) with false by (symmetry; lia). unfold documented. cbv zeta. rewrite crop_whole by exact Hp.
  unfold out_width. rewrite Nat.sub_0_r. set (w := Nat.max _ _). set (b := ((w + 7) / 8)%nat).
  assert (I : length (image_bytes p (g_planes g) w (p_rows p)) = (g_planes g * (length (p_rows p) * b))%nat).
  { unfold image_bytes. erewrite flat_len; [rewrite seq_length; reflexivity|]. intros i _. apply flat_len. intros row _. apply bytes_of_len. }
  assert (M : length (mask_bytes p (mask_colour (g_colour g)) w (p_rows p)) = (length (p_rows p) * b)%nat) by (unfold mask_bytes; apply flat_len; intros row _; apply bytes_of_len).
  clearbody b. destruct (g_first g), (g_mask g); rewrite app_length, ?map_length, I, ?M; cbn [length]; nia.
Qed.
Print Assumptions c43_size.

(** A picture of four colours, nine pixels wide and two high, in four shades and with a mask. *)
Definition demo : picture :=
  mkpicture 2 9 [mkrgb 0 0 0 0; mkrgb 0 255 0 0; mkrgb 255 255 255 0; mkrgb 128 128 128 0]
    [[0; 1; 2; 3; 0; 1; 2; 3; 3]; [2; 2; 2; 2; 1; 1; 1; 1; 0]].
Definition demo_extras : extras := mkextras (repeat 0 8) [1; 0] (repeat 0 12) (repeat 0 4) 0.
Definition demo_settings : settings := mksettings (-1) 65280 2 true false false.
Definition demo_define (name value : text) : text * define := (name, mkdefine name 0 (zs "a.asm") (Some value) []).
Definition demo_state : st :=
  set_defines [demo_define (zs "__BM_SHD") (zs "4"); demo_define (zs "__BM_MSK_RGB") (zs "$00FF00"); demo_define (zs "__BM_MSK") (zs "1")] blank.
Definition demo_conf : cfg := mkconf (world_of []) args0.
Lemma demo_settings_are n : (1 < n)%nat ->
  configured demo_conf (knot demo_conf n) demo_state demo_settings /\ setting (knot demo_conf n) demo_state (zs "__BM_PAD") (-1) /\
  no_map demo_conf demo_state /\ flag demo_conf (knot demo_conf n) demo_state (zs "__BM_HDR") 1 false.
Proof.
  intros Hn. assert (S0 : sessions_ok demo_state) by constructor.
  assert (U : forall name, name_ok name -> undefined demo_conf demo_state name -> setting (knot demo_conf n) demo_state name (-1) /\ forall v, flag demo_conf (knot demo_conf n) demo_state name v false)
    by (intros name H1 H2; now apply (c43_settings demo_conf n demo_state name H1 eq_refl S0 Hn)).
  assert (V : forall name l, name_ok name -> numbered demo_conf demo_state name l -> setting (knot demo_conf n) demo_state name (number_of l) /\ forall v, flag demo_conf (knot demo_conf n) demo_state name v (number_of l =? v))
    by (intros name l H1 H2; now apply (c43_settings demo_conf n demo_state name H1 eq_refl S0 Hn)).
  assert (NO : forall name, AsmProps.name_okb name = true -> name_ok name) by exact AsmProps.name_okb_ok.
  assert (UN : forall name, AsmProps.name_okb name = true -> undefined demo_conf demo_state name -> setting (knot demo_conf n) demo_state name (-1) /\ forall v, flag demo_conf (knot demo_conf n) demo_state name v false) by auto.
  assert (NB : forall name l d, tfind (key demo_conf name) (s_defines demo_state) = Some d -> d_args d = [] -> d_contents d = Some (literal_text l) -> literal_ok l -> literal_number l <= 4294967295 ->
    key demo_conf name <> zs "__LINE" -> key demo_conf name <> zs "__FILE" -> numbered demo_conf demo_state name l).
  { intros name l d H1 H2 H3 H4 H5 H6 H7. refine (conj eq_refl (conj eq_refl (conj H6 (conj H7 (conj _ (conj H4 H5)))))). exists d. auto. }
  assert (D : forall c d, digit_value c = Some d -> d < 16 -> digit_of 16 c) by (intros c d H1 H2; exists d; auto).
  split; [|split; [|split]].
  - repeat split.
    + apply UN; [reflexivity|repeat split].
    + apply (V (zs "__BM_MSK_RGB") (HexDollar (zs "00FF00"))); [now apply NO|]. eapply NB; try reflexivity; try discriminate.
      repeat split; [discriminate|]. cbn. repeat (apply Forall_cons; [eapply D; [reflexivity|lia]|]). apply Forall_nil.
    + apply UN; [reflexivity|repeat split].
    + apply (V (zs "__BM_SHD") (Decimal (zs "4"))); [now apply NO|]. eapply NB; try reflexivity; try discriminate.
      repeat split; [discriminate|]. cbn. repeat (apply Forall_cons; [eexists; split; [reflexivity|lia]|]). apply Forall_nil.
    + apply (V (zs "__BM_MSK") (Decimal (zs "1"))); [now apply NO|]. eapply NB; try reflexivity; try discriminate.
      repeat split; [discriminate|]. cbn. repeat (apply Forall_cons; [eexists; split; [reflexivity|lia]|]). apply Forall_nil.
    + apply UN; [reflexivity|repeat split].
    + apply UN; [reflexivity|repeat split].
  - apply UN; [reflexivity|repeat split].
  - split; reflexivity.
  - apply UN; [reflexivity|repeat split].
Qed.
Example c43_case n : (1 < n)%nat ->
  picture_ok demo /\ extras_ok demo demo_extras /\ small demo /\ clear demo demo_settings /\ modest demo demo_settings /\
  whole demo demo_settings = [136; 0; 0; 128;  221; 128; 15; 128;  68; 127; 15; 127] /\
  exists s', handle_bitmap demo_conf (knot demo_conf n) (bmp_file demo demo_extras) demo_state = Ok tt s' /\
    s_mem s' = [136; 0; 0; 128;  221; 128; 15; 128;  68; 127; 15; 127] /\ s_pc s' = 12.
Proof.
  intros Hn. destruct (demo_settings_are n Hn) as (G1 & G2 & G3 & G4).
  assert (P : picture_ok demo).
  { unfold picture_ok, demo. cbn [p_depth p_rows p_palette p_width]. split; [cbn; tauto|]. split; [|split; [|split; [discriminate|]]].
    - repeat (apply Forall_cons; [split; [reflexivity|]; repeat (apply Forall_cons; [change (2 ^ Z.of_nat 2) with 4; lia|]); apply Forall_nil|]). apply Forall_nil.
    - intros _. repeat (apply Forall_cons; [repeat (apply Forall_cons; [reflexivity|]); apply Forall_nil|]). apply Forall_nil.
    - repeat (apply Forall_cons; [unfold byte_rgb, is_byte; cbn; lia|]). apply Forall_nil. }
  assert (X : extras_ok demo demo_extras) by (repeat split; left; split; reflexivity).
  assert (Sm : small demo) by (repeat split; vm_compute; discriminate).
  assert (K : clear demo demo_settings).
  { unfold clear, demo. cbn [p_rows]. repeat (apply Forall_cons; [repeat (apply Forall_cons; [vm_compute; first [left; discriminate|right; discriminate]|]); apply Forall_nil|]). apply Forall_nil. }
  assert (Mo : modest demo demo_settings) by (split; vm_compute; discriminate).
  assert (W : whole demo demo_settings = [136; 0; 0; 128;  221; 128; 15; 128;  68; 127; 15; 127]) by reflexivity.
  do 5 (split; [assumption|]). split; [exact W|].
  destruct (c43_bytes demo_conf n demo demo_extras demo_settings demo_state (-1)) as (s' & E & Ws); auto.
  - cbn. lia.
  - intros k H. discriminate H.
  - unfold counted. cbn. lia.
  - rewrite W. unfold room. cbn. lia.
  - exists s'. split; [exact E|]. destruct Ws as (_ & _ & M & Pc). rewrite M, Pc, W. split; reflexivity.
Qed.

(** A label directly before the bitmap. *)
Definition demo_labelled : st :=
  set_last_label (Some (zs "PIC")) (set_labels [(zs "PIC", mklabel (zs "PIC") 1 (zs "a.asm") 0)] demo_state).
Example c43_label_case :
  fresh demo_conf demo_labelled (zs "PIC_WIDTH") /\
  fresh demo_conf (with_label demo_conf (zs "PIC_WIDTH") 9 demo_labelled) (zs "PIC_HEIGHT") /\
  match handle_bitmap demo_conf (knot demo_conf 2) (bmp_file demo demo_extras) demo_labelled with
  | Ok tt s' => s_mem s' = whole demo demo_settings /\ tfind (zs "PIC_WIDTH") (s_labels s') = Some (mklabel (zs "PIC_WIDTH") 0 (zs "a.asm") 9) /\
                tfind (zs "PIC_HEIGHT") (s_labels s') = Some (mklabel (zs "PIC_HEIGHT") 0 (zs "a.asm") 2)
  | _ => False
  end.
Proof.
  split; [|split].
  - repeat split; vm_compute; discriminate.
  - repeat split; vm_compute; discriminate.
  - vm_compute. auto.
Qed.

(** Whole runs: a picture included by a program with the built-in settings, and one that is cut into
    strips. *)
Definition bitmap_run (src file : list Z) : option (Z * option (list Z)) :=
  match main 60 (world_of [(zs "/w/a.asm", src); (zs "/w/p.bmp", file)]) [zs "/w/a.asm"; zs "a.bin"] with
  | Done c l _ => Some (c, files_of l (zs "a.bin"))
  | _ => None
  end.
Definition include_line : text := [35] ++ zs "include " ++ [34] ++ zs "/w/p.bmp" ++ [34; 10].
Example c43_run :
  bitmap_run include_line (bmp_file demo demo_extras) = Some (0, Some (whole demo (mksettings (-1) 65280 1 false false false))) /\
  bitmap_run (zs "#define __BM_MIN_W 8" ++ [10] ++ zs "pic:" ++ [10] ++ include_line ++ zs " .db pic_width, pic_height" ++ [10]) (bmp_file demo demo_extras) =
    Some (0, Some (whole demo (mksettings 8 65280 1 false false false) ++ [9; 2])).
Proof. split; vm_compute; reflexivity. Qed.

(** ** What is not so *)
(** The layout of [bmp_file] for a depth of whole bytes: the bytes of each pixel, the lowest first, and
    [red], [green] and [blue] of a pixel as the file format has them. *)
Definition direct_file (depth : nat) (w : nat) (rows : list (list Z)) : list Z :=
  [66; 77] ++ repeat 0 8 ++ le_bytes 4 54 ++ le_bytes 4 40 ++ le_bytes 4 (Z.of_nat w) ++ le_bytes 4 (zlen rows) ++ [1; 0] ++
  le_bytes 2 (Z.of_nat depth) ++ le_bytes 4 0 ++ repeat 0 20 ++
  flat_map (fun row => flat_map (le_bytes (depth / 8)) row) (rev rows).
Definition colour16 (v : Z) : rgb := let f k := v / 2 ^ k mod 32 * 255 / 31 in mkrgb (f 10) (f 5) (f 0) 0.
Definition colour32 (v : Z) : rgb := mkrgb (v / 65536 mod 256) (v / 256 mod 256) (v mod 256) 0.
Definition direct_bytes (colour : Z -> rgb) (w : nat) (rows : list (list Z)) : list Z :=
  flat_map (fun row => bit_row w 0 (map (fun v => shade_of 2 (colour v)) row)) rows.
(** Sixteen and thirty-two bits per pixel: a white picture comes out black, and a bright green one too. *)
Theorem c43_sixteen_bits_refuted :
  exists v, 0 <= v < 32768 /\ colour16 v = mkrgb 255 255 255 0 /\ direct_bytes colour16 8 [repeat v 8] = [0] /\
  bitmap_run include_line (direct_file 16 8 [repeat v 8]) = Some (0, Some [255]).
Proof. exists 32767. split; [lia|]. split; [|split]; vm_compute; reflexivity. Qed.
Print Assumptions c43_sixteen_bits_refuted.
Theorem c43_thirty_two_bits_refuted :
  exists v, 0 <= v < 16777216 /\ clear_cut 2 (colour32 v) /\ direct_bytes colour32 8 [repeat v 8] = [0] /\
  bitmap_run include_line (direct_file 32 8 [repeat v 8]) = Some (0, Some [255]).
Proof. exists 51200. split; [lia|]. split; [right; vm_compute; discriminate|]. split; vm_compute; reflexivity. Qed.
Print Assumptions c43_thirty_two_bits_refuted.
(** A colour exactly between two shades: the rounding of the floating-point luminance decides. *)
Theorem c43_between_refuted :
  exists a b, darkness a = darkness b /\ shade_of 2 a = shade_of 2 b /\ shade 2 a = Some 1 /\ shade 2 b = Some 0.
Proof. exists (mkrgb 16 154 158 0), (mkrgb 146 120 112 0). split; [|split; [|split]]; vm_compute; reflexivity. Qed.
Print Assumptions c43_between_refuted.
(** With 128 shades or more a white pixel is converted from a negative number: undefined behaviour. *)
Theorem c43_many_shades_refuted :
  main 60 (world_of [(zs "/w/a.asm", zs "#define __BM_SHD 128" ++ [10] ++ include_line); (zs "/w/p.bmp", bmp_file demo demo_extras)]) [zs "/w/a.asm"; zs "a.bin"] = Crash UB_overflow.
Proof. vm_compute. reflexivity. Qed.
Print Assumptions c43_many_shades_refuted.
