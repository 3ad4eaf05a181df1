(** Bitmap import: the bytes written. *)
From Verif Require Import Base BaseProofs State UtilsModel ErrorsModel StorageModel ParserModel PassTwoModel BitmapModel MonadProofs UtilsProofs
  PassTwoSpec PassTwoProofs BitmapSpec ShadeProofs BitmapProofs.
Local Notation byte_at := BitmapModel.byte_at.

(** ** One pixel *)
Definition within (p : picture) (left right bottom top : nat) : Prop :=
  (left <= right <= p_width p)%nat /\ (bottom <= top <= length (p_rows p))%nat.
Definition part (left right bottom top : nat) : rect := mkrect (Z.of_nat bottom) (Z.of_nat left) (Z.of_nat right) (Z.of_nat top).
Definition shown (p : picture) (k : nat) (m : rgb) (v : Z) : Z * Z :=
  (shade_of (2 ^ Z.of_nat k) (colour p v), if same_colour (colour p v) m then 1 else 0).

Lemma colour_bytes p v : picture_ok p -> 0 <= v -> (p_depth p <> 24%nat -> v < zlen (p_palette p)) -> byte_rgb (colour p v).
Proof.
  intros (_ & _ & _ & _ & F) Hv Hp. unfold colour. destruct (Nat.eqb_spec (p_depth p) 24) as [E|N].
  - unfold byte_rgb, is_byte. cbn. pose proof (Z.mod_pos_bound v 256). pose proof (Z.mod_pos_bound (v / 256) 256). pose proof (Z.mod_pos_bound (v / 65536) 256). lia.
  - rewrite Forall_forall in F. apply F, nth_In. specialize (Hp N). unfold zlen in Hp. lia.
Qed.
Lemma rgb_eqb_is a b : rgb_eqb a b = same_colour a b.
Proof. unfold rgb_eqb, rgb3_eqb, same_colour. destruct (q_red a =? q_red b), (q_green a =? q_green b), (q_blue a =? q_blue b); reflexivity. Qed.
Lemma pixel_value p row c : picture_ok p -> In row (p_rows p) -> (c < p_width p)%nat ->
  0 <= nth c row 0 /\ (p_depth p <> 24%nat -> nth c row 0 < zlen (p_palette p)).
Proof.
  intros (_ & F & G & _ & _) Hin Hc. rewrite Forall_forall in F. destruct (F _ Hin) as (L & B). rewrite Forall_forall in B. split.
  - apply B, nth_In. lia.
  - intros N. specialize (G N). rewrite Forall_forall in G. specialize (G _ Hin). rewrite Forall_forall in G. apply G, nth_In. lia.
Qed.
Lemma slice_seq {A} (d : A) h : forall l k, (k + h <= length l)%nat -> firstn h (skipn k l) = map (fun i => nth (k + i) l d) (seq 0 h).
Proof.
  intros l k. revert l. induction k as [|k IH]; intros l H.
  - cbn [skipn]. revert l H. induction h as [|h IHh]; intros l H; [reflexivity|]. destruct l as [|a l]; [cbn in H; lia|].
    cbn [firstn seq map]. f_equal. rewrite IHh by (cbn in H; lia). rewrite <- seq_shift, map_map. reflexivity.
  - destruct l as [|a l]; [cbn in H; destruct h; [reflexivity|lia]|]. cbn [skipn]. rewrite IH by (cbn in H; lia). reflexivity.
Qed.
Lemma mapM_pure {A B} (f : A -> M B) (g : A -> B) s : forall l, (forall a, In a l -> f a s = Ok (g a) s) -> mapM f l s = Ok (map g l) s.
Proof.
  induction l as [|a l IH]; intros H; [reflexivity|]. cbn [mapM map]. unfold bind. rewrite H by now left. rewrite IH by (intros; apply H; now right). reflexivity.
Qed.
Lemma seq_split a b n : (b <= n)%nat -> seq a n = seq a b ++ seq (a + b) (n - b).
Proof. intros H. rewrite <- seq_app. f_equal. lia. Qed.
Lemma map_const_repeat {A B} (f : A -> B) c l : (forall x, In x l -> f x = c) -> map f l = repeat c (length l).
Proof. induction l as [|x l IH]; intros H; [reflexivity|]. cbn. rewrite H by now left. f_equal. apply IH. intros; apply H; now right. Qed.

Section Part.
Variables (p : picture) (x : extras) (left right bottom top k : nat) (m : rgb).
Hypothesis Hp : picture_ok p.
Hypothesis Hx : extras_ok p x.
Hypothesis Hw : within p left right bottom top.
Hypothesis Hk : (1 <= k <= 6)%nat.
Hypothesis Hclear : Forall (Forall (fun v => clear_cut (2 ^ Z.of_nat k) (colour p v))) (crop p left right bottom top).
Let b := the_bmp p x.
Let r := part left right bottom top.
Lemma r_w_is : r_w r = Z.of_nat (right - left). Proof. clear - Hw. destruct Hw. unfold r_w, r, part. cbn. lia. Qed.
Lemma r_h_is : r_h r = Z.of_nat (top - bottom). Proof. clear - Hw. destruct Hw. unfold r_h, r, part. cbn. lia. Qed.
(** Row [i] of the part, from its top. *)
Definition source (i : nat) : list Z := nth (length (p_rows p) - top + i) (p_rows p) [].
Lemma source_in i : (i < top - bottom)%nat -> In (source i) (p_rows p).
Proof. intros H. destruct Hw. apply nth_In. lia. Qed.
Lemma source_file i : (i < top - bottom)%nat -> nth_error (rev (p_rows p)) (Z.to_nat (r_top r + (r_h r - 1 - Z.of_nat i))) = Some (source i).
Proof.
  intros H. destruct Hw. rewrite r_h_is. unfold r, part. cbn [r_top]. replace (Z.to_nat _) with (top - 1 - i)%nat by lia.
  rewrite (nth_error_nth' _ []) by (rewrite rev_length; lia). rewrite rev_nth by lia. unfold source. do 2 f_equal. lia.
Qed.
Lemma source_width i : (i < top - bottom)%nat -> length (source i) = p_width p.
Proof. intros H. destruct Hp as (_ & F & _). rewrite Forall_forall in F. apply F. now apply source_in. Qed.
Lemma crop_is : crop p left right bottom top = map (fun i => firstn (right - left) (skipn left (source i))) (seq 0 (top - bottom)).
Proof. destruct Hw. unfold crop. rewrite (slice_seq []) by lia. rewrite map_map. reflexivity. Qed.
Lemma cell_is i c s : (i < top - bottom)%nat ->
  cell b (p_palette p) r (2 ^ Z.of_nat k) m None (r_h r - 1 - Z.of_nat i) (Z.of_nat c) s =
  Ok (if (c <? right - left)%nat then shown p k m (nth (left + c) (source i) 0) else (0, 1)) s.
Proof.
  intros Hi. pose proof Hw as (W1 & W2). assert (D : (0 < p_depth p)%nat) by (destruct Hp as (D & _); destruct D as [<-|[<-|[<-|[<-|[<-|[]]]]]]; lia).
  unfold cell. cbn [b b_bits b_width the_bmp]. cbn [r part r_left r_right].
  replace (Z.of_nat left * Z.of_nat (p_depth p) + Z.of_nat c * Z.of_nat (p_depth p)) with (Z.of_nat ((left + c) * p_depth p)) by lia.
  destruct (Nat.ltb_spec c (right - left)) as [L|L].
  - replace ((Z.of_nat (p_width p) * Z.of_nat (p_depth p) <=? _) || _) with false by (symmetry; apply orb_false_intro; apply Z.leb_gt; nia).
    assert (Hv := pixel_value p (source i) (left + c) Hp (source_in i Hi) ltac:(lia)). destruct Hv as (V1 & V2).
    pose proof (colour_bytes p _ Hp V1 V2) as (B1 & B2 & B3 & _).
    unfold bind at 1. fold b. rewrite (pixel_is p x r _ (left + c) (source i)); [|exact Hp|exact Hx|cbn; lia|rewrite r_h_is; lia|now apply source_file|lia].
    unfold bind. cbn [ret]. rewrite (shade_is (Z.of_nat k)); [|lia|assumption..|].
    + cbn [opt ret]. rewrite rgb_eqb_is. reflexivity.
    + rewrite Forall_forall in Hclear. specialize (Hclear (firstn (right - left) (skipn left (source i)))).
      assert (Hin : In (firstn (right - left) (skipn left (source i))) (crop p left right bottom top)) by (rewrite crop_is; apply in_map with (f := fun i => firstn (right - left) (skipn left (source i))); apply in_seq; lia).
      specialize (Hclear Hin). rewrite (slice_seq 0) in Hclear by (rewrite source_width; lia). rewrite Forall_forall in Hclear.
      apply (Hclear (nth (left + c) (source i) 0)). apply in_map with (f := fun i0 => nth (left + i0) (source i) 0). apply in_seq. lia.
  - replace ((Z.of_nat (p_width p) * Z.of_nat (p_depth p) <=? _) || _) with true; [reflexivity|]. symmetry. apply orb_true_intro. right. apply Z.leb_le. nia.
Qed.
Lemma cells_is i W s : (i < top - bottom)%nat -> (right - left <= W)%nat ->
  mapM (cell b (p_palette p) r (2 ^ Z.of_nat k) m None (r_h r - 1 - Z.of_nat i)) (zrange (Z.of_nat W)) s =
  Ok (fill W (0, 1) (map (shown p k m) (firstn (right - left) (skipn left (source i))))) s.
Proof.
  intros Hi HW. destruct Hw as (W1 & W2). rewrite (mapM_pure _ (fun z => if (Z.to_nat z <? right - left)%nat then shown p k m (nth (left + Z.to_nat z) (source i) 0) else (0, 1))).
  2:{ intros a Ha. unfold zrange in Ha. apply in_map_iff in Ha as (c & <- & _). rewrite Nat2Z.id. now apply cell_is. }
  rewrite zrange_len, map_map. unfold fill. rewrite (slice_seq 0) by (rewrite source_width; lia). rewrite !map_length, seq_length, map_map.
  rewrite (seq_split 0 (right - left) W) by lia. rewrite map_app. f_equal. f_equal.
  - apply map_ext_in. intros c Hc. apply in_seq in Hc. rewrite Nat2Z.id. replace (c <? right - left)%nat with true by (symmetry; apply Nat.ltb_lt; lia). reflexivity.
  - rewrite (map_const_repeat _ (0, 1)); [now rewrite seq_length|]. intros c Hc. apply in_seq in Hc. rewrite Nat2Z.id.
    replace (c <? right - left)%nat with false by (symmetry; apply Nat.ltb_ge; lia). reflexivity.
Qed.
Definition padded (W : nat) : nat := (8 * ((W + 7) / 8))%nat.
Lemma padded_le W : (W <= padded W)%nat.
Proof. unfold padded. pose proof (Nat.div_mod (W + 7) 8 ltac:(lia)). pose proof (Nat.mod_upper_bound (W + 7) 8 ltac:(lia)). lia. Qed.
Lemma fill_fill {A} a c (d : A) l : (length l <= a <= c)%nat -> fill c d (fill a d l) = fill c d l.
Proof.
  intros H. unfold fill. rewrite <- app_assoc, <- repeat_app. f_equal. f_equal. rewrite app_length, repeat_length. lia.
Qed.
Lemma rows_are W s : (right - left <= W)%nat ->
  mapM (fun i => l <- mapM (cell b (p_palette p) r (2 ^ Z.of_nat k) m None (r_h r - 1 - i)) (zrange (Z.of_nat W)) ;;
                 ret (pad_row (Z.of_nat (padded W)) (0, 1) l)) (zrange (r_h r)) s =
  Ok (map (fun row => fill (padded W) (0, 1) (map (shown p k m) row)) (crop p left right bottom top)) s.
Proof.
  intros HW. pose proof Hw as (W1 & W2). rewrite crop_is, map_map. replace (zrange (r_h r)) with (map Z.of_nat (seq 0 (top - bottom))) by (rewrite r_h_is; symmetry; apply zrange_len).
  rewrite (mapM_pure _ (fun z => fill (padded W) (0, 1) (map (shown p k m) (firstn (right - left) (skipn left (source (Z.to_nat z))))))).
  - f_equal. rewrite map_map. apply map_ext. intros i. now rewrite Nat2Z.id.
  - intros a Ha. apply in_map_iff in Ha as (i & <- & Hi). apply in_seq in Hi. rewrite Nat2Z.id. rewrite (bind_ok _ _ _ _ _ (cells_is i W s ltac:(lia) HW)).
    unfold ret, pad_row. rewrite Nat2Z.id. change (?l ++ repeat (0, 1) (padded W - length ?l)) with (fill (padded W) (0, 1) l).
    f_equal. apply fill_fill. split; [|apply padded_le]. rewrite map_length, firstn_length. lia.
Qed.
End Part.

(** ** Packing *)
Lemma map_fill {A B} (f : A -> B) n d l : map f (fill n d l) = fill n (f d) (map f l).
Proof. unfold fill. rewrite map_app, map_length. f_equal. generalize (n - length l)%nat. intros j. induction j as [|j IH]; [reflexivity|]. cbn. now rewrite IH. Qed.
Lemma plane_bit v i : Z.land (Z.shiftr v (Z.of_nat i)) 1 = v / 2 ^ Z.of_nat i mod 2.
Proof. rewrite Z.shiftr_div_pow2 by lia. change 1 with (Z.ones 1) at 1. rewrite Z.land_ones by lia. reflexivity. Qed.
Lemma planes_is k : planes (2 ^ Z.of_nat k) = Some (map (fun i => Z.of_nat (k - 1 - i)) (seq 0 k)).
Proof.
  unfold planes. assert (0 < 2 ^ Z.of_nat k) by (apply Z.pow_pos_nonneg; lia). replace (_ =? 0) with false by lia. rewrite Z.log2_pow2 by lia. f_equal.
  rewrite zrange_len. rewrite <- map_rev. rewrite <- (map_map (fun i => (k - 1 - i)%nat) Z.of_nat). f_equal. clear.
  assert (H : forall n a, rev (seq a n) = map (fun i => a + (n - 1 - i))%nat (seq 0 n)).
  { induction n as [|n IH]; intros a; [reflexivity|]. rewrite seq_S. rewrite rev_app_distr. cbn [rev app]. rewrite IH. cbn [seq map]. f_equal; [lia|].
    rewrite <- seq_shift, map_map. apply map_ext. intros i. lia. }
  rewrite H. apply map_ext. intros; lia.
Qed.
Lemma packed_row W pad bits : (length bits <= W)%nat -> pack8 (fill (padded W) pad bits) = bit_row W pad bits.
Proof. intros H. unfold bit_row. apply pack8_is. rewrite fill_len; [reflexivity|]. pose proof (padded_le W). lia. Qed.
Lemma image_is p k m W rows : Forall (fun row => (length row <= W)%nat) rows ->
  concat (map (fun i => concat (map (fun row => pack8 (map (fun c => Z.land (Z.shiftr (fst c) i) 1) row)) (map (fun row => fill (padded W) (0, 1) (map (shown p k m) row)) rows)))
    (map (fun i => Z.of_nat (k - 1 - i)) (seq 0 k))) = image_bytes p k W rows.
Proof.
  intros F. unfold image_bytes. rewrite map_map. rewrite <- flat_map_concat_map. apply flat_map_ext. intros i.
  rewrite map_map, <- flat_map_concat_map. clear - F. induction F as [|row rows Hr F IH]; [reflexivity|]. cbn [flat_map]. rewrite IH. f_equal.
  rewrite map_fill, map_map. cbn [fst shown]. change (Z.land (Z.shiftr 0 (Z.of_nat (k - 1 - i))) 1) with (Z.land (Z.shiftr 0 (Z.of_nat (k - 1 - i))) 1).
  replace (Z.land (Z.shiftr 0 (Z.of_nat (k - 1 - i))) 1) with 0 by (rewrite Z.shiftr_0_l; reflexivity).
  rewrite packed_row by (rewrite map_length; lia). f_equal. apply map_ext. intros v. apply plane_bit.
Qed.
Lemma mask_is p k m W rows : Forall (fun row => (length row <= W)%nat) rows ->
  concat (map (fun row => pack8 (map snd row)) (map (fun row => fill (padded W) (0, 1) (map (shown p k m) row)) rows)) = mask_bytes p m W rows.
Proof.
  intros F. unfold mask_bytes. rewrite map_map, <- flat_map_concat_map. induction F as [|row rows Hr F IH]; [reflexivity|]. cbn [flat_map]. rewrite IH. f_equal.
  rewrite map_fill, map_map. cbn [snd shown]. rewrite packed_row by (rewrite map_length; lia). reflexivity.
Qed.
Lemma bit_row_bytes W pad bits : bit pad -> Forall bit bits -> Forall is_byte (bit_row W pad bits).
Proof.
  intros Hp F. unfold bit_row. set (n := ((W + 7) / 8)%nat). assert (G : Forall bit (fill (8 * n) pad bits)).
  { unfold fill. apply Forall_app. split; [exact F|]. apply Forall_forall. intros y Hy. apply repeat_spec in Hy. now subst. }
  generalize (fill (8 * n) pad bits) G. clearbody n. clear. induction n as [|n IH]; intros l G; [constructor|]. cbn [bytes_of]. constructor.
  - pose proof (number_bound (firstn 8 l) (Forall_slice bit 8 0 l G)). unfold is_byte. assert (2 ^ zlen (firstn 8 l) <= 2 ^ 8).
    { apply Z.pow_le_mono_r; [lia|]. unfold zlen. rewrite firstn_length. lia. } change (2 ^ 8) with 256 in *. lia.
  - apply IH. rewrite <- (firstn_skipn 8 l) in G. now apply Forall_app in G.
Qed.
Lemma flat_forall {A B} (P : B -> Prop) (f : A -> list B) l : (forall a, Forall P (f a)) -> Forall P (flat_map f l).
Proof. intros H. induction l as [|a l IH]; [constructor|]. cbn. apply Forall_app. auto. Qed.
Lemma image_bytes_ok p k W rows : Forall is_byte (image_bytes p k W rows).
Proof.
  unfold image_bytes. apply flat_forall. intros i. apply flat_forall. intros row. apply bit_row_bytes; [now left|]. apply Forall_map, Forall_forall. intros v _.
  pose proof (Z.mod_pos_bound (shade_of (2 ^ Z.of_nat k) (colour p v) / 2 ^ Z.of_nat (k - 1 - i)) 2). unfold bit. lia.
Qed.
Lemma mask_bytes_ok p m W rows : Forall is_byte (mask_bytes p m W rows).
Proof.
  unfold mask_bytes. apply flat_forall. intros row. apply bit_row_bytes; [now right|]. apply Forall_map, Forall_forall. intros v _. unfold bit. destruct (same_colour _ _); auto.
Qed.

(** ** What changes *)
(** Looking up a setting changes only notes of the expression reader. *)
Definition calm (s s1 : st) : Prop := s1 = set_nextid (s_nextid s1) (set_fwd (s_fwd s1) (set_depth (s_depth s1) s)).
Definition like (s s1 : st) : Prop :=
  s1 = set_nextid (s_nextid s1) (set_fwd (s_fwd s1) (set_depth (s_depth s1) (set_pc (s_pc s1) (set_pos (s_pos s1) (set_mem (s_mem s1) s))))).
Lemma calm_refl s : calm s s. Proof. unfold calm. now destruct s. Qed.
Lemma like_refl s : like s s. Proof. unfold like. now destruct s. Qed.
Lemma calm_trans s a c : calm s a -> calm a c -> calm s c.
Proof. unfold calm. intros H1 H2. rewrite H2 at 1. rewrite H1. reflexivity. Qed.
Lemma like_trans s a c : like s a -> like a c -> like s c.
Proof. unfold like. intros H1 H2. rewrite H2 at 1. rewrite H1. reflexivity. Qed.
Lemma calm_like s a : calm s a -> like s a.
Proof. unfold calm, like. intros H. rewrite H at 1. assert (E : s_pc a = s_pc s /\ s_pos a = s_pos s /\ s_mem a = s_mem s) by (rewrite H; auto). destruct E as (-> & -> & ->). destruct s; reflexivity. Qed.
(** The bytes [l] are put at the output position, and the address moves on. *)
Definition placed (m : list Z) (i : nat) (l : list Z) : list Z := match l with [] => m | _ => splice m i l end.
Definition wrote (l : list Z) (s s1 : st) : Prop :=
  like s s1 /\ s_pos s1 = s_pos s + zlen l /\ s_mem s1 = placed (s_mem s) (Z.to_nat (s_pos s)) l /\ s_pc s1 = u32 (s_pc s + zlen l).
Definition counted (s : st) : Prop := 0 <= s_pc s < 4294967296.
Lemma wrote_calm s s1 : counted s -> calm s s1 -> wrote [] s s1.
Proof.
  intros Hc H. split; [now apply calm_like|]. assert (E : s_pc s1 = s_pc s /\ s_pos s1 = s_pos s /\ s_mem s1 = s_mem s) by (rewrite H; auto).
  destruct E as (-> & -> & ->). unfold zlen, placed, u32. cbn [length]. rewrite Z.mod_small by (unfold counted in Hc; lia). repeat split; lia.
Qed.
Lemma wrote_app a c s s1 s2 : 0 <= s_pos s -> wrote a s s1 -> wrote c s1 s2 -> wrote (a ++ c) s s2.
Proof.
  intros Hp (A1 & A2 & A3 & A4) (B1 & B2 & B3 & B4). split; [now apply like_trans with s1|]. rewrite zlen_app. split; [lia|]. split.
  - rewrite B3, A3, A2. destruct a as [|v a]; [cbn [app placed]; unfold zlen; cbn [length]; rewrite Z.add_0_r; reflexivity|].
    destruct c as [|w c]; [now rewrite app_nil_r|]. change (splice (splice (s_mem s) (Z.to_nat (s_pos s)) (v :: a)) (Z.to_nat (s_pos s + zlen (v :: a))) (w :: c) = splice (s_mem s) (Z.to_nat (s_pos s)) ((v :: a) ++ w :: c)). rewrite <- splice_app by discriminate. f_equal. unfold zlen. lia.
  - rewrite B4, A4. unfold u32. rewrite Zplus_mod_idemp_l. f_equal. lia.
Qed.
Lemma emit_is v s : room 1 s -> wrote [u8 v] s (set_pc (u32 (s_pc s + 1)) (emitted [u8 v] s)) /\ emit v s = Ok tt (set_pc (u32 (s_pc s + 1)) (emitted [u8 v] s)).
Proof.
  intros Hr. split; [|unfold emit; rewrite (bind_ok _ _ _ _ _ (write_out_emitted v s Hr)); reflexivity].
  split; [unfold like; destruct s; reflexivity|]. split; [reflexivity|]. split; [reflexivity|]. reflexivity.
Qed.
Lemma emit_all_is l : forall s, counted s -> room (zlen l) s -> exists s1, emit_all l s = Ok tt s1 /\ wrote (map u8 l) s s1.
Proof.
  induction l as [|v l IH]; intros s Hc Hr.
  - exists s. split; [reflexivity|]. apply wrote_calm; [exact Hc|apply calm_refl].
  - rewrite zlen_cons in Hr. pose proof (zlen_nonneg l). destruct (emit_is v s) as (W & E); [unfold room in *; lia|].
    destruct (IH (set_pc (u32 (s_pc s + 1)) (emitted [u8 v] s))) as (s1 & E1 & W1).
    + unfold counted. cbn. unfold u32. pose proof (Z.mod_pos_bound (s_pc s + 1) 4294967296). lia.
    + destruct W as (_ & Wp & _). change (zlen [u8 v]) with 1 in Wp. unfold room in *. rewrite Wp. lia.
    + exists s1. split; [cbn [emit_all]; now rewrite (bind_ok _ _ _ _ _ E)|]. cbn [map]. change (u8 v :: map u8 l) with ([u8 v] ++ map u8 l). refine (wrote_app _ _ _ _ _ _ W W1). unfold room in Hr. lia.
Qed.

Lemma split_rgb_is v : split_rgb v = mask_colour v.
Proof.
  unfold split_rgb, mask_colour. change 255 with (Z.ones 8). rewrite !Z.land_ones, !Z.shiftr_div_pow2 by lia. reflexivity.
Qed.
Lemma u8_not v : is_byte v -> u8 (Z.lnot v) = 255 - v.
Proof. intros H. unfold is_byte in H. unfold u8, Z.lnot. replace (Z.pred (- v)) with (255 - v + (-1) * 256) by lia. rewrite Z.mod_add by lia. apply Z.mod_small. lia. Qed.
Lemma u8_bytes l : Forall is_byte l -> map u8 l = l.
Proof. induction 1 as [|v l H F IH]; [reflexivity|]. cbn. rewrite IH. unfold is_byte in H. unfold u8. rewrite Z.mod_small by lia. reflexivity. Qed.
Lemma wrote_counted l s s1 : wrote l s s1 -> counted s1.
Proof. intros (_ & _ & _ & E). unfold counted. rewrite E. unfold u32. pose proof (Z.mod_pos_bound (s_pc s + zlen l) 4294967296). lia. Qed.
Lemma wrote_room l n s s1 : wrote l s s1 -> room (zlen l + n) s -> room n s1.
Proof. intros (_ & E & _) H. unfold room in *. pose proof (zlen_nonneg l). lia. Qed.
Lemma wrote_like l s s1 : wrote l s s1 -> like s s1. Proof. now intros (H & _). Qed.
Lemma calm_counted s s1 : calm s s1 -> counted s -> counted s1.
Proof. intros H Hc. unfold counted in *. rewrite H. exact Hc. Qed.
Lemma calm_room n s s1 : calm s s1 -> room n s -> room n s1.
Proof. intros H Hc. unfold room in *. rewrite H. exact Hc. Qed.

Section Settings.
Variable C : cfg.
Variable R : fns.
Definition setting (s : st) (name : text) (v : Z) : Prop := forall s1, like s s1 -> exists s2, parse_f R name s1 = Ok v s2 /\ calm s1 s2.
Definition flag (s : st) (name : text) (v : Z) (b : bool) : Prop := forall s1, like s s1 -> exists s2, define_with_value C R name v s1 = Ok b s2 /\ calm s1 s2.
Definition configured (s : st) (g : settings) : Prop :=
  setting s (zs "__BM_MIN_W") (g_min g) /\ setting s (zs "__BM_MSK_RGB") (g_colour g) /\ setting s (zs "__BM_INV_RGB") (-1) /\
  setting s (zs "__BM_SHD") (2 ^ Z.of_nat (g_planes g)) /\
  flag s (zs "__BM_MSK") 1 (g_mask g) /\ flag s (zs "__BM_MSK_1ST") 1 (g_first g) /\ flag s (zs "__BM_MSK_INV") 1 (g_invert g).
Lemma setting_like s s1 name v : like s s1 -> setting s name v -> setting s1 name v.
Proof. intros L H s2 L2. apply H. now apply like_trans with s1. Qed.
Lemma flag_like s s1 name v b : like s s1 -> flag s name v b -> flag s1 name v b.
Proof. intros L H s2 L2. apply H. now apply like_trans with s1. Qed.
Lemma configured_like s s1 g : like s s1 -> configured s g -> configured s1 g.
Proof. intros L (H1 & H2 & H3 & H4 & H5 & H6 & H7). repeat split; eauto using setting_like, flag_like. Qed.

Lemma emit_mask_is b l : Forall is_byte l -> forall s, flag s (zs "__BM_MSK_INV") 1 b -> counted s -> room (zlen l) s ->
  exists s1, emit_mask C R l s = Ok tt s1 /\ wrote (map (fun v => if b then 255 - v else v) l) s s1.
Proof.
  induction 1 as [|v l Hv F IH]; intros s Hf Hc Hr.
  - exists s. split; [reflexivity|]. apply wrote_calm; [exact Hc|apply calm_refl].
  - rewrite zlen_cons in Hr. pose proof (zlen_nonneg l). destruct (Hf s (like_refl s)) as (s0 & E0 & K0).
    destruct (emit_is (if b then Z.lnot v else v) s0) as (W & E); [apply (calm_room _ _ _ K0); unfold room in *; lia|].
    set (s1 := set_pc _ _) in W, E.
    replace (u8 (if b then Z.lnot v else v)) with (if b then 255 - v else v) in W by (destruct b; [now rewrite u8_not|unfold is_byte in Hv; unfold u8; now rewrite Z.mod_small by lia]).
    assert (Hpos : 0 <= s_pos s) by (unfold room in Hr; lia). pose proof (wrote_app _ _ _ _ _ Hpos (wrote_calm _ _ Hc K0) W) as W'. change ([] ++ [if b then 255 - v else v]) with [if b then 255 - v else v] in W'.
    destruct (IH s1) as (s2 & E2 & W2).
    + apply (flag_like s); [exact (wrote_like _ _ _ W')|exact Hf].
    + exact (wrote_counted _ _ _ W).
    + apply (wrote_room _ _ _ _ W'). change (zlen [if b then 255 - v else v]) with 1. exact Hr.
    + exists s2. split.
      * cbn [emit_mask]. rewrite (bind_ok _ _ _ _ _ E0). rewrite (bind_ok _ _ _ _ _ E). exact E2.
      * cbn [map]. refine (wrote_app [_] _ _ _ _ _ W' W2). unfold room in Hr. lia.
Qed.

Definition fits (p : picture) (g : settings) (left right bottom top : nat) : Prop :=
  Z.of_nat (padded (out_width g left right) * (top - bottom)) <= INT_MAX /\
  Z.of_nat ((left + out_width g left right) * p_depth p) <= INT_MAX.
Lemma crop_short p left right bottom top W : (right - left <= W)%nat -> Forall (fun row : list Z => (length row <= W)%nat) (crop p left right bottom top).
Proof. intros H. unfold crop. apply Forall_map, Forall_forall. intros row _. rewrite firstn_length. lia. Qed.

Lemma internal_is p x left right bottom top g s :
  picture_ok p -> extras_ok p x -> small p -> within p left right bottom top -> (1 <= g_planes g <= 6)%nat ->
  Forall (Forall (fun v => clear_cut (2 ^ Z.of_nat (g_planes g)) (colour p v))) (crop p left right bottom top) ->
  fits p g left right bottom top -> configured s g -> counted s -> room (zlen (documented p g left right bottom top)) s ->
  exists s1, bitmap_internal C R (the_bmp p x) (p_palette p) (part left right bottom top) s = Ok tt s1 /\
    wrote (documented p g left right bottom top) s s1.
Proof.
  intros Hp Hx Hs Hw Hk Hclear (F1 & F2) Hg Hc Hr. pose proof Hw as (W1 & W2).
  destruct Hg as (G1 & G2 & G3 & G4 & G5 & G6 & G7).
  destruct (G1 s (like_refl s)) as (s1 & E1 & K1). destruct (G2 s1 (calm_like _ _ K1)) as (s2 & E2 & K2). pose proof (calm_trans _ _ _ K1 K2) as K02.
  destruct (G3 s2 (calm_like _ _ K02)) as (s3 & E3 & K3). pose proof (calm_trans _ _ _ K02 K3) as K03.
  destruct (G4 s3 (calm_like _ _ K03)) as (s4 & E4 & K4). pose proof (calm_trans _ _ _ K03 K4) as K04.
  unfold bitmap_internal. rewrite (bind_ok _ _ _ _ _ E1), (bind_ok _ _ _ _ _ E2), (bind_ok _ _ _ _ _ E3), (bind_ok _ _ _ _ _ E4).
  set (W := out_width g left right) in *.
  assert (EW : (if r_w (part left right bottom top) >? g_min g then r_w (part left right bottom top) else g_min g) = Z.of_nat W).
  { rewrite (r_w_is p left right bottom top Hw). unfold W, out_width. destruct (Z.gtb_spec (Z.of_nat (right - left)) (g_min g)); lia. }
  assert (En : row_size (part left right bottom top) (g_min g) = Z.of_nat (padded W)).
  { unfold row_size. rewrite EW. rewrite Z.quot_div_nonneg by lia. unfold padded. rewrite Nat2Z.inj_mul, Nat2Z.inj_div, Nat2Z.inj_add.
    change (Z.of_nat 7) with 7. change (Z.of_nat 8) with 8. lia. }
  rewrite En, EW, (r_h_is p left right bottom top Hw), scan_is.
  assert (Hsh : 2 ^ Z.of_nat (g_planes g) mod 65536 = 2 ^ Z.of_nat (g_planes g)).
  { apply Z.mod_small. split; [apply Z.pow_nonneg; lia|]. apply Z.le_lt_trans with (2 ^ 6); [apply Z.pow_le_mono_r; lia|reflexivity]. }
  rewrite Hsh.
  assert (Hcond : (Z.of_nat (top - bottom) <? 0) || (Z.of_nat (padded W) <? 0) || negb (in_int (b_width (the_bmp p x) * b_bits (the_bmp p x) + 31)) ||
     negb (in_int (Z.of_nat (scan p) * Z.of_nat (top - bottom))) || negb (in_int (Z.of_nat (padded W) * Z.of_nat (top - bottom))) ||
     negb (in_int (Z.of_nat (scan p) * r_top (part left right bottom top))) ||
     negb (in_int ((r_left (part left right bottom top) + Z.of_nat W) * b_bits (the_bmp p x))) = false).
  { cbn [b_width b_bits the_bmp part r_top r_left]. destruct Hs as (S1 & S2 & S3 & S4 & S5). unfold zlen in S5.
    assert (B : forall v, 0 <= v <= INT_MAX -> in_int v = true) by (intros v B; unfold in_int, INT_MIN, INT_MAX in *; lia).
    rewrite !B; [|nia..]. replace (Z.of_nat (top - bottom) <? 0) with false by lia. replace (Z.of_nat (padded W) <? 0) with false by lia. reflexivity. }
  rewrite Hcond. cbv iota. change (-1 =? -1) with true. cbv iota zeta.
  pose proof (rows_are p x left right bottom top (g_planes g) (split_rgb (g_colour g)) Hp Hx Hw Hk Hclear W s4 ltac:(unfold W, out_width; lia)) as Erows.
  rewrite (r_h_is p left right bottom top Hw) in Erows. rewrite (bind_ok _ _ _ _ _ Erows). clear Erows.
  rewrite (bind_ok _ _ s4 (map (fun i => Z.of_nat (g_planes g - 1 - i)) (seq 0 (g_planes g))) s4) by (rewrite planes_is; reflexivity).
  pose proof (crop_short p left right bottom top W ltac:(unfold W, out_width; lia)) as Hshort.
  rewrite image_is, mask_is by exact Hshort. rewrite split_rgb_is.
  set (rows := crop p left right bottom top) in *.
  set (image := image_bytes p (g_planes g) W rows). set (mask := mask_bytes p (mask_colour (g_colour g)) W rows).
  assert (Ed : documented p g left right bottom top =
    (let m' := if g_mask g then map (fun v => if g_invert g then 255 - v else v) mask else [] in if g_first g then m' ++ image else image ++ m')) by reflexivity.
  assert (Im : forall a, like s a -> counted a -> room (zlen image) a -> exists a', emit_all image a = Ok tt a' /\ wrote image a a').
  { intros a _ Ha Hra. destruct (emit_all_is image a Ha Hra) as (a' & X1 & X2). exists a'. split; [exact X1|]. rewrite u8_bytes in X2 by apply image_bytes_ok. exact X2. }
  set (mm := if g_mask g then map (fun v => if g_invert g then 255 - v else v) mask else []) in *.
  assert (Ma : forall a, like s a -> counted a -> room (zlen mm) a ->
    exists a', (mk <- define_with_value C R (zs "__BM_MSK") 1 ;; if mk then emit_mask C R mask else ret tt) a = Ok tt a' /\ wrote mm a a').
  { intros a La Ha Hra. destruct (G5 a La) as (a1 & X1 & X2). rewrite (bind_ok _ _ _ _ _ X1). unfold mm in *. destruct (g_mask g).
    - destruct (emit_mask_is (g_invert g) mask (mask_bytes_ok _ _ _ _) a1) as (a2 & Y1 & Y2).
      + apply (flag_like s); [apply like_trans with a; [exact La|now apply calm_like]|exact G7].
      + now apply (calm_counted a).
      + apply (calm_room _ a); [exact X2|]. unfold zlen in *. now rewrite map_length in Hra.
      + exists a2. split; [exact Y1|]. refine (wrote_app [] _ _ _ _ _ (wrote_calm _ _ Ha X2) Y2). unfold room in Hra. lia.
    - exists a1. split; [reflexivity|]. now apply wrote_calm. }
  destruct (G6 s4 (calm_like _ _ K04)) as (s5 & E5 & K5). rewrite (bind_ok _ _ _ _ _ E5). pose proof (calm_trans _ _ _ K04 K5) as K05.
  pose proof (wrote_calm _ _ Hc K05) as W0. rewrite Ed in *. cbv zeta in *. fold image in Hr |- *. fold mask. fold mm in Hr |- *.
  destruct (g_first g).
  - rewrite zlen_app in Hr. pose proof (zlen_nonneg image). destruct (Ma s5 (calm_like _ _ K05) (calm_counted _ _ K05 Hc)) as (s6 & X1 & X2); [apply (calm_room _ _ _ K05); unfold room in *; lia|].
    destruct (Im s6) as (s7 & Y1 & Y2).
    + apply like_trans with s5; [now apply calm_like|exact (wrote_like _ _ _ X2)].
    + exact (wrote_counted _ _ _ X2).
    + apply (wrote_room _ _ _ _ X2). apply (calm_room _ _ _ K05). exact Hr.
    + exists s7. split; [rewrite (bind_ok _ _ _ _ _ X1); exact Y1|]. refine (wrote_app [] _ _ _ _ _ W0 (wrote_app _ _ _ _ _ _ X2 Y2)); [unfold room in Hr; lia|]. apply (calm_room _ _ _ K05) in Hr. unfold room in Hr. lia.
  - rewrite zlen_app in Hr. pose proof (zlen_nonneg mm). destruct (Im s5 (calm_like _ _ K05) (calm_counted _ _ K05 Hc)) as (s6 & X1 & X2); [apply (calm_room _ _ _ K05); unfold room in *; lia|].
    destruct (Ma s6) as (s7 & Y1 & Y2).
    + apply like_trans with s5; [now apply calm_like|exact (wrote_like _ _ _ X2)].
    + exact (wrote_counted _ _ _ X2).
    + apply (wrote_room _ _ _ _ X2). apply (calm_room _ _ _ K05). exact Hr.
    + exists s7. split; [rewrite (bind_ok _ _ _ _ _ X1); exact Y1|]. refine (wrote_app [] _ _ _ _ _ W0 (wrote_app _ _ _ _ _ _ X2 Y2)); [unfold room in Hr; lia|]. apply (calm_room _ _ _ K05) in Hr. unfold room in Hr. lia.
Qed.

(** ** A whole picture *)
Definition modest (p : picture) (g : settings) : Prop :=
  let w := Nat.max (p_width p) (Z.to_nat (g_min g)) in
  Z.of_nat ((w + 7) * length (p_rows p)) <= INT_MAX /\ Z.of_nat ((p_width p + w) * p_depth p) <= INT_MAX.
Definition clear (p : picture) (g : settings) : Prop :=
  Forall (Forall (fun v => clear_cut (2 ^ Z.of_nat (g_planes g)) (colour p v))) (p_rows p).
Lemma in_slice {A} (v : A) a b l : In v (firstn a (skipn b l)) -> In v l.
Proof.
  intros H. rewrite <- (firstn_skipn b l). apply in_or_app. right. rewrite <- (firstn_skipn a (skipn b l)). apply in_or_app. now left.
Qed.
Lemma clear_crop p g left right bottom top : clear p g ->
  Forall (Forall (fun v => clear_cut (2 ^ Z.of_nat (g_planes g)) (colour p v))) (crop p left right bottom top).
Proof.
  unfold clear, crop. rewrite !Forall_forall. intros H row Hr. apply in_map_iff in Hr as (row0 & <- & Hr). apply in_slice in Hr. specialize (H _ Hr).
  rewrite Forall_forall in H |- *. intros v Hv. apply in_slice in Hv. now apply H.
Qed.
Lemma padded_up W : (padded W <= W + 7)%nat.
Proof. unfold padded. pose proof (Nat.div_mod (W + 7) 8 ltac:(lia)). lia. Qed.
Lemma modest_fits p g left right top : modest p g -> (left <= right <= p_width p)%nat -> (top <= length (p_rows p))%nat -> fits p g left right 0 top.
Proof.
  intros (M1 & M2) H Ht. pose proof (padded_up (out_width g left right)) as P. assert (O : (out_width g left right <= Nat.max (p_width p) (Z.to_nat (g_min g)))%nat) by (unfold out_width; lia).
  split; [eapply Z.le_trans; [|exact M1]|eapply Z.le_trans; [|exact M2]]; apply inj_le; apply Nat.mul_le_mono; lia.
Qed.
Lemma ceil_lt w m i : (0 < m)%nat -> (i < (w + m - 1) / m)%nat <-> (i * m < w)%nat.
Proof.
  intros Hm. pose proof (Nat.div_mod (w + m - 1) m ltac:(lia)). pose proof (Nat.mod_upper_bound (w + m - 1) m ltac:(lia)). nia.
Qed.
Lemma strips_are p x g : picture_ok p -> extras_ok p x -> small p -> (1 <= g_planes g <= 6)%nat -> clear p g -> modest p g ->
  0 < g_min g ->
  let m := Z.to_nat (g_min g) in let h := length (p_rows p) in
  forall j i f right s, (i + j)%nat = ((p_width p + m - 1) / m)%nat -> (j <= f)%nat -> configured s g -> counted s ->
  room (zlen (flat_map (fun i => documented p g (i * m) (Nat.min (i * m + m) (p_width p)) 0 h) (seq i j))) s ->
  exists s1, strips C R f (the_bmp p x) (p_palette p) (mkrect 0 (Z.of_nat (i * m)) right (Z.of_nat h)) (g_min g) (Z.of_nat (p_width p) - Z.of_nat (i * m)) s = Ok tt s1 /\
    wrote (flat_map (fun i => documented p g (i * m) (Nat.min (i * m + m) (p_width p)) 0 h) (seq i j)) s s1.
Proof.
  intros Hp Hx Hs Hk Hcl Hmo Hmin m h. assert (Hm : (0 < m)%nat) by lia.
  induction j as [|j IH]; intros i f right s Hij Hjf Hg Hc Hr.
  - exists s. split; [|apply wrote_calm; [exact Hc|apply calm_refl]]. destruct f; [reflexivity|]. cbn [strips].
    assert (~ (i * m < p_width p)%nat) by (intros K; apply (ceil_lt _ m i Hm) in K; lia). replace (0 <? Z.of_nat (p_width p) - Z.of_nat (i * m)) with false by lia. reflexivity.
  - assert (Hi : (i * m < p_width p)%nat) by (apply (ceil_lt _ m i Hm); lia).
    destruct f as [|f]; [lia|]. cbn [strips]. replace (0 <? Z.of_nat (p_width p) - Z.of_nat (i * m)) with true by lia. cbn [r_top r_left r_right r_bottom]. cbv zeta.
    replace (mkrect 0 (Z.of_nat (i * m)) (Z.of_nat (i * m) + Z.min (g_min g) (Z.of_nat (p_width p) - Z.of_nat (i * m))) (Z.of_nat h))
      with (part (i * m) (Nat.min (i * m + m) (p_width p)) 0 h) by (unfold part; f_equal; lia).
    cbn [seq flat_map] in Hr. set (one := documented p g (i * m) (Nat.min (i * m + m) (p_width p)) 0 h) in *. cbn [seq flat_map]. fold one.
    set (rest := flat_map _ (seq (S i) j)) in *. rewrite zlen_app in Hr. pose proof (zlen_nonneg rest).
    destruct (internal_is p x (i * m) (Nat.min (i * m + m) (p_width p)) 0 h g s) as (s1 & E1 & W1); auto.
    + unfold within. lia.
    + now apply clear_crop.
    + apply modest_fits; [exact Hmo|lia|unfold h; lia].
    + fold one. unfold room in *. lia.
    + rewrite (bind_ok _ _ _ _ _ E1). fold one in W1. cbn [part r_top r_left r_right r_bottom].
      replace (Z.of_nat (i * m) + g_min g) with (Z.of_nat (S i * m)) by lia.
      replace (Z.of_nat (p_width p) - Z.of_nat (i * m) - g_min g) with (Z.of_nat (p_width p) - Z.of_nat (S i * m)) by lia.
      destruct (IH (S i) f (Z.of_nat (i * m) + Z.min (g_min g) (Z.of_nat (p_width p) - Z.of_nat (i * m))) s1) as (s2 & E2 & W2); [lia|lia| | | |].
      * exact (configured_like _ _ _ (wrote_like _ _ _ W1) Hg).
      * exact (wrote_counted _ _ _ W1).
      * fold rest. apply (wrote_room _ _ _ _ W1). exact Hr.
      * exists s2. split; [exact E2|]. refine (wrote_app _ _ _ _ _ _ W1 W2). unfold room in Hr. lia.
Qed.
Lemma crop_whole p : picture_ok p -> crop p 0 (p_width p) 0 (length (p_rows p)) = p_rows p.
Proof.
  intros (_ & F & _). unfold crop. rewrite Nat.sub_diag, !Nat.sub_0_r. cbn [skipn]. rewrite firstn_all. rewrite Forall_forall in F.
  transitivity (map (fun row => row) (p_rows p)); [|apply map_id]. apply map_ext_in. intros row Hr. destruct (F _ Hr) as (L & _). rewrite <- L. apply firstn_all.
Qed.
Lemma body_is p x g s : picture_ok p -> extras_ok p x -> small p -> (1 <= g_planes g <= 6)%nat -> clear p g -> modest p g ->
  configured s g -> counted s -> room (zlen (whole p g)) s ->
  exists s1, bitmap_body C R (the_bmp p x) (p_palette p) (mkrect 0 0 (Z.of_nat (p_width p)) (zlen (p_rows p))) (g_min g) (Z.of_nat (p_width p)) s = Ok tt s1 /\
    wrote (whole p g) s s1.
Proof.
  intros Hp Hx Hs Hk Hcl Hmo Hg Hc Hr. unfold bitmap_body, whole in *. cbv zeta in *. destruct ((0 <? g_min g) && (g_min g <? Z.of_nat (p_width p))) eqn:B.
  - set (m := Z.to_nat (g_min g)) in *. assert (Hm : (0 < m)%nat) by lia.
    pose proof (strips_are p x g Hp Hx Hs Hk Hcl Hmo ltac:(lia) ((p_width p + m - 1) / m) 0 (Z.to_nat (Z.of_nat (p_width p))) (Z.of_nat (p_width p)) s eq_refl) as H.
    cbn [Nat.mul] in H. change (Z.of_nat 0) with 0 in H. rewrite Z.sub_0_r in H. apply H; auto.
    rewrite Nat2Z.id. assert (~ (p_width p < (p_width p + m - 1) / m)%nat) by (rewrite ceil_lt by exact Hm; nia). lia.
  - change (mkrect 0 0 (Z.of_nat (p_width p)) (zlen (p_rows p))) with (part 0 (p_width p) 0 (length (p_rows p))). apply internal_is; auto.
    + unfold within. lia.
    + now apply clear_crop.
    + apply modest_fits; [exact Hmo|lia|lia].
Qed.

(** The labels made for a picture that follows a label. *)
Definition titled (base : option text) (w h : Z) (s s1 : st) : Prop :=
  (label_with C base (zs "_WIDTH") w ;;; label_with C base (zs "_HEIGHT") h) s = Ok tt s1.
Definition title (s : st) : option text :=
  match s_last_label s with
  | Some k => match tfind k (s_labels s) with Some l => if u32 (l_value l) =? s_pc s then Some (l_name l) else None | None => None end
  | None => None
  end.
Definition no_map (s : st) : Prop := find_arg (key C (zs "__BM_MAP")) (s_args s) = None /\ tfind (key C (zs "__BM_MAP")) (s_defines s) = None.
Lemma like_fields s s1 : like s s1 -> s_args s1 = s_args s /\ s_defines s1 = s_defines s /\ s_labels s1 = s_labels s /\ s_last_label s1 = s_last_label s /\ s_sess s1 = s_sess s /\ s_errs s1 = s_errs s /\ s_erroc s1 = s_erroc s.
Proof. intros H. rewrite H. repeat split. Qed.
Lemma calm_pc s s1 : calm s s1 -> s_pc s1 = s_pc s. Proof. intros H. now rewrite H. Qed.
Lemma search_none name s : find_arg (key C name) (s_args s) = None -> tfind (key C name) (s_defines s) = None -> search_defines C name true s = Ok None s.
Proof.
  intros Ha Hd. unfold search_defines. rewrite bind_get, bind_get. rewrite Ha, Hd. destruct (eqbl (key C name) (zs "__LINE")); [reflexivity|]. destruct (eqbl (key C name) (zs "__FILE")); reflexivity.
Qed.
Lemma palette_len p x : extras_ok p x -> 
  (if (Z.of_nat (p_depth p) <? 16) || negb (x_used x =? 0) then (if x_used x =? 0 then Z.shiftl 1 (Z.of_nat (p_depth p)) else x_used x) else 0) = zlen (p_palette p) \/ (p_depth p = 24)%nat \/ 16 <= Z.of_nat (p_depth p).
Proof.
  intros (_ & _ & _ & _ & [(E & H)|(E & N & H)]).
  - destruct (Nat.eq_dec (p_depth p) 24) as [K|K]; [auto|]. destruct (Z.ltb_spec (Z.of_nat (p_depth p)) 16); [|auto]. left. rewrite E. cbn [orb Z.eqb]. rewrite (H K), Z.shiftl_1_l. reflexivity.
  - left. replace (x_used x =? 0) with false by lia. rewrite orb_true_r. cbv iota. now symmetry.
Qed.
Lemma file_long p x : extras_ok p x -> offset p <= zlen (bmp_file p x).
Proof.
  intros Hx. destruct (file_split p x Hx) as (hdr & E & L). rewrite E. unfold offset, zlen. rewrite !app_length, L.
  assert (Lp : length (palette_bytes p) = (4 * length (p_palette p))%nat) by (unfold palette_bytes; induction (p_palette p) as [|q l IH]; [reflexivity|]; cbn [flat_map]; rewrite app_length, IH; cbn [length]; lia).
  lia.
Qed.
Lemma handle_is p x g s s1 pad : picture_ok p -> extras_ok p x -> small p -> (1 <= g_planes g <= 6)%nat -> clear p g -> modest p g ->
  setting s (zs "__BM_PAD") pad -> setting s (zs "__BM_MIN_W") (g_min g) -> no_map s -> 
  (forall k, s_last_label s = Some k -> tfind k (s_labels s) <> None) ->
  (forall s0, calm s s0 -> exists s2, titled (title s) (Z.of_nat (p_width p)) (zlen (p_rows p)) s0 s2 /\ calm s1 s2) ->
  flag s1 (zs "__BM_HDR") 1 false -> configured s1 g -> counted s1 -> room (zlen (whole p g)) s1 ->
  exists s2, handle_bitmap C R (bmp_file p x) s = Ok tt s2 /\ wrote (whole p g) s1 s2.
Proof.
  intros Hp Hx Hs Hk Hcl Hmo Hpad Hmin (Hm1 & Hm2) Hlast Ht Hh Hg Hc Hr.
  destruct (Hpad s (like_refl s)) as (a1 & E1 & K1). unfold handle_bitmap. rewrite (bind_ok _ _ _ _ _ E1).
  pose proof (like_fields _ _ (calm_like _ _ K1)) as (Fa & Fd & _).
  rewrite (bind_ok _ _ _ _ _ (search_none (zs "__BM_MAP") a1 ltac:(now rewrite Fa) ltac:(now rewrite Fd))).
  destruct (Hmin a1 (calm_like _ _ K1)) as (a2 & E2 & K2). rewrite (bind_ok _ _ _ _ _ E2). pose proof (calm_trans _ _ _ K1 K2) as K02.
  rewrite (read_file p x Hp Hx Hs). cbn [opt]. rewrite bind_ret. change (negb (b_isize (the_bmp p x) =? 40) || negb (b_comp (the_bmp p x) =? 0)) with false. cbv iota.
  change (b_bits (the_bmp p x)) with (Z.of_nat (p_depth p)). change (b_used (the_bmp p x)) with (x_used x). change (b_off (the_bmp p x)) with (offset p). set (ncol := if (Z.of_nat (p_depth p) <? 16) || negb (x_used x =? 0) then (if x_used x =? 0 then Z.shiftl 1 (Z.of_nat (p_depth p)) else x_used x) else 0).
  assert (En : ncol = zlen (p_palette p)).
  { destruct (palette_len p x Hx) as [E|E]; [exact E|]. destruct Hp as (D & _ & _ & P24 & _).
    assert (E24 : p_depth p = 24%nat) by (destruct D as [D|[D|[D|[D|[D|[]]]]]]; rewrite <- D in E |- *; cbn in E; lia). unfold ncol. rewrite E24, (P24 E24).
    destruct Hx as (_ & _ & _ & _ & [(E0 & _)|(_ & N & _)]); [rewrite E0; reflexivity|contradiction]. }
  cbv zeta. rewrite En. rewrite (Z.min_l (54 + 4 * zlen (p_palette p))) by (exact (file_long p x Hx)). fold (offset p). rewrite Z.eqb_refl. cbn [negb]. rewrite (palette_is p x Hx).
  rewrite !bind_get. pose proof (like_fields _ _ (calm_like _ _ K02)) as (_ & _ & Fl & Fll & _). pose proof (calm_pc _ _ K02) as Fp.
  rewrite (bind_ok _ _ a2 (title s) a2).
  2:{ rewrite Fll, Fl, Fp. unfold title. destruct (s_last_label s) as [k|] eqn:El; [|reflexivity]. specialize (Hlast k eq_refl). destruct (tfind k (s_labels s)) as [l|]; [|contradiction]. reflexivity. }
  rewrite bind_ret. destruct (Ht a2 K02) as (a3 & E3 & K3). unfold titled in E3. change (b_width (the_bmp p x)) with (Z.of_nat (p_width p)). change (b_height (the_bmp p x)) with (zlen (p_rows p)).
  rewrite <- bind_assoc. rewrite (bind_ok _ _ _ _ _ E3).
  unfold bitmap_header. destruct (Hh a3 (calm_like _ _ K3)) as (a4 & E4 & K4). rewrite bind_assoc. rewrite (bind_ok _ _ _ _ _ E4), bind_ret.
  pose proof (calm_trans _ _ _ K3 K4) as K04.
  destruct (body_is p x g a4) as (a5 & E5 & W5); auto.
  - exact (configured_like _ _ _ (calm_like _ _ K04) Hg).
  - exact (calm_counted _ _ K04 Hc).
  - exact (calm_room _ _ _ K04 Hr).
  - exists a5. split; [exact E5|]. refine (wrote_app [] _ _ _ _ _ (wrote_calm _ _ Hc K04) W5). unfold room in Hr. lia.
Qed.
End Settings.
