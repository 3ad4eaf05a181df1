(** Bitmap import: reading the file. *)
From Coq Require Import Floats.SpecFloat.
From Verif Require Import Base BaseProofs State UtilsModel ErrorsModel StorageModel ParserModel PassTwoModel BitmapModel MonadProofs UtilsProofs BitmapSpec ShadeProofs.

(** ** Bits *)
Lemma number_app a : forall b, number (a ++ b) = number a * 2 ^ zlen b + number b.
Proof.
  unfold number. intros b. rewrite fold_left_app. generalize (fold_left (fun a b => 2 * a + b) a 0). revert b.
  assert (H : forall b c, fold_left (fun a b => 2 * a + b) b c = c * 2 ^ zlen b + fold_left (fun a b => 2 * a + b) b 0).
  { induction b as [|x b IH]; intros c; cbn [fold_left]; [unfold zlen; cbn; lia|]. rewrite IH, (IH (2 * 0 + x)). rewrite zlen_cons.
    pose proof (zlen_nonneg b). rewrite Z.pow_add_r by lia. change (2 ^ 1) with 2. lia. }
  intros b c. apply H.
Qed.
Definition bit (b : Z) : Prop := b = 0 \/ b = 1.
Lemma number_bound l : Forall bit l -> 0 <= number l < 2 ^ zlen l.
Proof.
  induction l as [|x l IH] using rev_ind; intros F; [unfold zlen; cbn; lia|]. apply Forall_app in F as (F1 & F2). inversion F2; subst. specialize (IH F1).
  rewrite number_app, zlen_app. change (zlen [x]) with 1. rewrite Z.pow_add_r by (pose proof (zlen_nonneg l); lia). change (2 ^ 1) with 2. cbn [number fold_left].
  change (number [x]) with (2 * 0 + x). destruct H1 as [->| ->]; lia.
Qed.
Lemma bits_bit d v : Forall bit (pixel_bits d v).
Proof.
  unfold pixel_bits. apply Forall_map, Forall_forall. intros i _. pose proof (Z.mod_pos_bound (v / 2 ^ Z.of_nat (d - 1 - i)) 2). unfold bit. lia.
Qed.
Lemma bits_len d v : length (pixel_bits d v) = d. Proof. unfold pixel_bits. now rewrite map_length, seq_length. Qed.
Lemma bits_S d v : pixel_bits (S d) v = pixel_bits d (v / 2) ++ [v mod 2].
Proof.
  unfold pixel_bits. rewrite seq_S, map_app. cbn [map]. f_equal.
  - apply map_ext_in. intros i Hi. apply in_seq in Hi. rewrite Z.div_div by (try apply Z.pow_pos_nonneg; lia). f_equal. f_equal.
    change 2 with (2 ^ 1) at 2. rewrite <- Z.pow_add_r by lia. f_equal. lia.
  - replace (S d - 1 - (0 + d))%nat with 0%nat by lia. now rewrite Z.div_1_r.
Qed.
Lemma number_bits d : forall v, 0 <= v < 2 ^ Z.of_nat d -> number (pixel_bits d v) = v.
Proof.
  induction d as [|d IH]; intros v Hv; [cbn in *; lia|]. rewrite bits_S, number_app. rewrite IH.
  - change (zlen [v mod 2]) with 1. change (2 ^ 1) with 2. change (number [v mod 2]) with (2 * 0 + v mod 2). pose proof (Z.div_mod v 2). lia.
  - rewrite Nat2Z.inj_succ, Z.pow_succ_r in Hv by lia. split; [apply Z.div_pos; lia|apply Z.div_lt_upper_bound; lia].
Qed.
Lemma bytes_len n : forall l, length (bytes_of n l) = n.
Proof. induction n as [|n IH]; intros l; cbn; [reflexivity|now rewrite IH]. Qed.
Lemma skip_skip {A} a : forall b (l : list A), skipn a (skipn b l) = skipn (b + a) l.
Proof. induction b as [|b IH]; intros l; [reflexivity|]. destruct l as [|x l]; [now rewrite !skipn_nil|]. cbn. apply IH. Qed.
Lemma bytes_nth n : forall l i, (i < n)%nat -> nth_error (bytes_of n l) i = Some (number (firstn 8 (skipn (8 * i) l))).
Proof.
  induction n as [|n IH]; intros l i Hi; [lia|]. destruct i as [|i]; [reflexivity|]. cbn [bytes_of nth_error]. rewrite IH by lia.
  rewrite skip_skip. do 4 f_equal. lia.
Qed.
Lemma fill_len {A} n (x : A) l : (length l <= n)%nat -> length (fill n x l) = n.
Proof. intros H. unfold fill. rewrite app_length, repeat_length. lia. Qed.
Lemma pack8_is : forall n l, length l = (8 * n)%nat -> pack8 l = bytes_of n l.
Proof.
  induction n as [|n IH]; intros l H; [destruct l; [reflexivity|discriminate]|].
  do 8 (destruct l as [|? l]; [cbn in H; lia|]). cbn [pack8 bytes_of firstn skipn]. f_equal; [unfold number; cbn [fold_left]; lia|]. apply IH. cbn in H. lia.
Qed.
(** The [d] bits at a place inside a byte. *)
Lemma field_of_byte a m b : Forall bit (a ++ m ++ b) ->
  Z.shiftr (Z.land (number (a ++ m ++ b)) (Z.shiftl (2 ^ zlen m - 1) (zlen b))) (zlen b) = number m.
Proof.
  intros F. apply Forall_app in F as (Fa & F). apply Forall_app in F as (Fm & Fb).
  pose proof (zlen_nonneg b) as Lb. pose proof (zlen_nonneg m) as Lm.
  rewrite Z.shiftr_land, Z.shiftr_shiftl_l by lia. rewrite Z.sub_diag. rewrite Z.shiftl_0_r.
  replace (2 ^ zlen m - 1) with (Z.ones (zlen m)) by (rewrite Z.ones_equiv; lia). rewrite Z.land_ones by lia.
  rewrite !number_app, zlen_app, Z.shiftr_div_pow2 by lia. rewrite Z.pow_add_r by lia.
  pose proof (number_bound _ Fb). pose proof (number_bound _ Fm).
  replace (number a * (2 ^ zlen m * 2 ^ zlen b) + (number m * 2 ^ zlen b + number b)) with (number b + (number a * 2 ^ zlen m + number m) * 2 ^ zlen b) by ring.
  rewrite Z.div_add, (Z.div_small (number b)) by lia. rewrite Z.add_0_l, Z.add_comm, Z.mod_add by lia. now apply Z.mod_small.
Qed.
Lemma number_bits_mod d : forall v, number (pixel_bits d v) = v mod 2 ^ Z.of_nat d.
Proof.
  induction d as [|d IH]; intros v; [cbn; now rewrite Z.mod_1_r|]. rewrite bits_S, number_app, IH.
  change (zlen [v mod 2]) with 1. change (2 ^ 1) with 2. change (number [v mod 2]) with (2 * 0 + v mod 2).
  rewrite Nat2Z.inj_succ, Z.pow_succ_r by lia. rewrite Z.rem_mul_r by lia. lia.
Qed.
Lemma bits_app a b : forall v, pixel_bits (a + b) v = pixel_bits a (v / 2 ^ Z.of_nat b) ++ pixel_bits b v.
Proof.
  induction b as [|b IH]; intros v; [rewrite Nat.add_0_r, Z.div_1_r; now rewrite app_nil_r|].
  rewrite Nat.add_succ_r, !bits_S, IH, app_assoc. do 2 f_equal. rewrite Z.div_div by lia. f_equal.
  rewrite Nat2Z.inj_succ, Z.pow_succ_r; lia.
Qed.
Lemma slice_slice {A} d o k b (B : list A) : (o + d <= k)%nat -> firstn d (skipn o (firstn k (skipn b B))) = firstn d (skipn (b + o) B).
Proof.
  intros H. rewrite skipn_firstn_comm, firstn_firstn, skip_skip. f_equal. lia.
Qed.
Lemma row_slice d n x row : (d * length row <= n)%nat -> (x < length row)%nat ->
  firstn d (skipn (x * d) (fill n 0 (flat_map (pixel_bits d) row))) = pixel_bits d (nth x row 0).
Proof.
  intros Hn Hx. unfold fill. set (tail := repeat 0 _). clearbody tail. clear Hn. revert x Hx.
  induction row as [|v row IH]; intros x Hx; [cbn in Hx; lia|]. destruct x as [|x].
  - cbn [Nat.mul skipn flat_map nth]. rewrite <- app_assoc. rewrite <- (bits_len d v) at 1. rewrite firstn_app, firstn_all, Nat.sub_diag. cbn. apply app_nil_r.
  - cbn [flat_map nth]. rewrite <- app_assoc. replace (S x * d)%nat with (length (pixel_bits d v) + x * d)%nat by (rewrite bits_len; lia).
    rewrite skipn_app, skipn_all2 by lia. rewrite app_nil_l. replace (_ + _ - _)%nat with (x * d)%nat by lia. apply IH. cbn in Hx. lia.
Qed.
Lemma flat_len d row : length (flat_map (pixel_bits d) row) = (d * length row)%nat.
Proof. induction row as [|v row IH]; [cbn; lia|]. cbn [flat_map length]. rewrite app_length, bits_len, IH. lia. Qed.
Lemma fill_bits n l : Forall bit l -> Forall bit (fill n 0 l).
Proof. intros F. unfold fill. apply Forall_app. split; [exact F|]. apply Forall_forall. intros x Hx. apply repeat_spec in Hx. now left. Qed.
Lemma flat_bits d row : Forall bit (flat_map (pixel_bits d) row).
Proof. induction row as [|v row IH]; [constructor|]. cbn. apply Forall_app. split; [apply bits_bit|exact IH]. Qed.
Lemma Forall_slice {A} (P : A -> Prop) a b l : Forall P l -> Forall P (firstn a (skipn b l)).
Proof. intros F. apply Forall_forall. intros x Hx. rewrite Forall_forall in F. apply F. assert (In x (skipn b l)) by (rewrite <- (firstn_skipn a (skipn b l)); apply in_or_app; now left). rewrite <- (firstn_skipn b l). apply in_or_app. now right. Qed.

(** ** The header *)
Lemma le_bytes_2 v : le_bytes 2 v = [v mod 256; v / 256 mod 256].
Proof. unfold le_bytes. cbn [seq map]. change (256 ^ Z.of_nat 0) with 1. change (256 ^ Z.of_nat 1) with 256. now rewrite Z.div_1_r. Qed.
Lemma le_bytes_4 v : le_bytes 4 v = [v mod 256; v / 256 mod 256; v / 65536 mod 256; v / 16777216 mod 256].
Proof.
  unfold le_bytes. cbn [seq map]. change (256 ^ Z.of_nat 0) with 1. change (256 ^ Z.of_nat 1) with 256.
  change (256 ^ Z.of_nat 2) with 65536. change (256 ^ Z.of_nat 3) with 16777216. now rewrite Z.div_1_r.
Qed.
Lemma le4_value v : 0 <= v < 4294967296 ->
  v mod 256 + 256 * (v / 256 mod 256) + 65536 * (v / 65536 mod 256 + 256 * (v / 16777216 mod 256)) = v.
Proof.
  intros H. replace (v / 65536) with (v / 256 / 256) by (rewrite Z.div_div by lia; reflexivity).
  replace (v / 16777216) with (v / 256 / 256 / 256) by (rewrite !Z.div_div by lia; reflexivity).
  set (a := v / 256). set (b := a / 256). set (c := b / 256).
  pose proof (Z.div_mod v 256). pose proof (Z.div_mod a 256). pose proof (Z.div_mod b 256).
  assert (0 <= c < 256) by (unfold c, b, a; rewrite !Z.div_div by lia; split; [apply Z.div_pos|apply Z.div_lt_upper_bound]; lia).
  rewrite (Z.mod_small c) by lia. fold a in H0. fold b in H1. fold c in H2. lia.
Qed.
Lemma le2_value v : 0 <= v < 65536 -> v mod 256 + 256 * (v / 256 mod 256) = v.
Proof.
  intros H. assert (0 <= v / 256 < 256) by (split; [apply Z.div_pos|apply Z.div_lt_upper_bound]; lia). rewrite (Z.mod_small (v / 256)) by lia.
  pose proof (Z.div_mod v 256). lia.
Qed.
Definition offset (p : picture) : Z := 54 + 4 * zlen (p_palette p).
Definition the_bmp (p : picture) (x : extras) : bmp :=
  mkbmp (bmp_file p x) (offset p) 40 (Z.of_nat (p_width p)) (zlen (p_rows p)) (Z.of_nat (p_depth p)) 0 (x_used x).
Definition pixel_data (p : picture) : list Z := flat_map (file_row p) (rev (p_rows p)).
Definition small (p : picture) : Prop :=
  Z.of_nat (p_width p) <= INT_MAX /\ zlen (p_rows p) <= INT_MAX /\ 54 + 4 * zlen (p_palette p) <= INT_MAX /\
  Z.of_nat (p_width p * p_depth p) + 31 <= INT_MAX /\ Z.of_nat (scan p) * zlen (p_rows p) <= INT_MAX.
Ltac unlist l := repeat (destruct l as [|? l]; try discriminate).
Lemma file_split p x : extras_ok p x -> exists hdr, bmp_file p x = hdr ++ palette_bytes p ++ pixel_data p /\ length hdr = 54%nat.
Proof.
  intros (H1 & H2 & H3 & H4 & _). unfold bmp_file. 
  exists ([66; 77] ++ x_size x ++ le_bytes 4 (54 + 4 * zlen (p_palette p)) ++ le_bytes 4 40 ++ le_bytes 4 (Z.of_nat (p_width p)) ++
    le_bytes 4 (zlen (p_rows p)) ++ x_planes x ++ le_bytes 2 (Z.of_nat (p_depth p)) ++ le_bytes 4 0 ++ x_image x ++
    le_bytes 4 (x_used x) ++ x_important x).
  split; [now rewrite <- !app_assoc|]. rewrite !app_length, H1, H2, H3, H4. reflexivity.
Qed.
Lemma wrap_small v : 0 <= v <= INT_MAX -> wrap32 v = v.
Proof. intros H. unfold INT_MAX in H. unfold wrap32. rewrite Z.mod_small by lia. lia. Qed.
Lemma byte_nth f i n v : i = Z.of_nat n -> nth_error f n = Some v -> byte_at f i = Some v.
Proof. intros -> H. unfold byte_at. replace (Z.of_nat n <? 0) with false by lia. now rewrite Nat2Z.id. Qed.
Lemma le16_at f i n a b : i = Z.of_nat n -> nth_error f n = Some a -> nth_error f (S n) = Some b -> le16 f i = Some (a + 256 * b).
Proof. intros -> H1 H2. unfold le16. rewrite (byte_nth f _ n a), (byte_nth f _ (S n) b); auto; lia. Qed.
Lemma le32_at f i n a b c d : i = Z.of_nat n -> nth_error f n = Some a -> nth_error f (S n) = Some b -> nth_error f (S (S n)) = Some c -> nth_error f (S (S (S n))) = Some d ->
  le32 f i = Some (a + 256 * b + 65536 * (c + 256 * d)).
Proof. intros -> H1 H2 H3 H4. unfold le32. rewrite (le16_at f _ n a b), (le16_at f _ (S (S n)) c d); auto; lia. Qed.
Lemma read_file p x : picture_ok p -> extras_ok p x -> small p -> read_bmp (bmp_file p x) = Some (the_bmp p x).
Proof.
  intros (Hd & _) (H1 & H2 & H3 & H4 & Hu) (S1 & S2 & S3 & _). unfold INT_MAX in *.
  assert (Bu : 0 <= x_used x < 4294967296) by lia. assert (Bd : 0 <= Z.of_nat (p_depth p) < 65536) by (destruct Hd as [<-|[<-|[<-|[<-|[<-|[]]]]]]; cbn; lia).
  unfold read_bmp, the_bmp. set (f := bmp_file p x). assert (Ef : bmp_file p x = f) by reflexivity. clearbody f. revert Ef. unfold bmp_file.
  destruct x as [a b c d u]. cbn [x_size x_planes x_image x_important x_used] in *. rewrite !le_bytes_4, le_bytes_2.
  unlist a. unlist b. unlist c. unlist d. intros Ef.
  clear H1 H2 H3 H4. cbn [app] in Ef.
  erewrite (le32_at f 10 10) by (first [reflexivity|rewrite <- Ef; reflexivity]).
  erewrite (le32_at f 14 14) by (first [reflexivity|rewrite <- Ef; reflexivity]).
  erewrite (le32_at f 18 18) by (first [reflexivity|rewrite <- Ef; reflexivity]).
  erewrite (le32_at f 22 22) by (first [reflexivity|rewrite <- Ef; reflexivity]).
  erewrite (le16_at f 28 28) by (first [reflexivity|rewrite <- Ef; reflexivity]).
  erewrite (le32_at f 30 30) by (first [reflexivity|rewrite <- Ef; reflexivity]).
  erewrite (le32_at f 46 46) by (first [reflexivity|rewrite <- Ef; reflexivity]).
  erewrite (byte_nth f 53 53) by (first [reflexivity|rewrite <- Ef; reflexivity]).
  pose proof (zlen_nonneg (p_rows p)). pose proof (zlen_nonneg (p_palette p)).
  rewrite !le4_value, le2_value by lia. rewrite !wrap_small by (unfold INT_MAX; lia). reflexivity.
Qed.
(** ** The palette *)
Lemma map_nth_seq {A} (d : A) : forall l, map (fun i => nth i l d) (seq 0 (length l)) = l.
Proof.
  intros l. induction l as [|x l IH] using rev_ind; [reflexivity|]. rewrite app_length, Nat.add_1_r, seq_S, map_app. cbn [map].
  rewrite app_nth2, Nat.sub_diag by lia. f_equal. rewrite <- IH at 2. apply map_ext_in. intros i Hi. apply in_seq in Hi. rewrite app_nth1 by lia. reflexivity.
Qed.
Lemma quads l : forall i q, nth_error l i = Some q ->
  forall t, nth_error (flat_map (fun q => [q_blue q; q_green q; q_red q; q_res q]) l ++ t) (4 * i) = Some (q_blue q) /\
  nth_error (flat_map (fun q => [q_blue q; q_green q; q_red q; q_res q]) l ++ t) (4 * i + 1) = Some (q_green q) /\
  nth_error (flat_map (fun q => [q_blue q; q_green q; q_red q; q_res q]) l ++ t) (4 * i + 2) = Some (q_red q) /\
  nth_error (flat_map (fun q => [q_blue q; q_green q; q_red q; q_res q]) l ++ t) (4 * i + 3) = Some (q_res q).
Proof.
  induction l as [|x l IH]; intros [|i] q H t; cbn [nth_error] in H; try discriminate.
  - injection H as ->. cbn [flat_map app]. repeat split.
  - specialize (IH i q H t). replace (4 * S i)%nat with (4 + 4 * i)%nat by lia. cbn [flat_map app]. cbn [Nat.add nth_error]. exact IH.
Qed.
Lemma zrange_len n : zrange (Z.of_nat n) = map Z.of_nat (seq 0 n). Proof. unfold zrange. now rewrite Nat2Z.id. Qed.
Lemma palette_is p x : extras_ok p x -> palette (the_bmp p x) (zlen (p_palette p)) = p_palette p.
Proof.
  intros Hx. destruct (file_split p x Hx) as (hdr & E & L). unfold palette. cbn [b_file the_bmp]. unfold zlen. rewrite zrange_len, map_map.
  rewrite <- (map_nth_seq (mkrgb 0 0 0 0) (p_palette p)) at 2. apply map_ext_in. intros i Hi. apply in_seq in Hi.
  destruct (nth_error (p_palette p) i) as [q|] eqn:Eq; [|apply nth_error_None in Eq; lia]. rewrite (nth_error_nth _ _ _ Eq).
  destruct (quads _ i q Eq (pixel_data p)) as (A & B & C & D). fold (palette_bytes p) in A, B, C, D. rewrite E.
  assert (K : forall k n v, 0 <= k -> n = Z.to_nat k -> nth_error (palette_bytes p ++ pixel_data p) (4 * i + n) = Some v ->
    byte_at (hdr ++ palette_bytes p ++ pixel_data p) (54 + 4 * Z.of_nat i + k) = Some v).
  { intros k n v Hk En H. apply (byte_nth _ _ (54 + (4 * i + n))); [lia|]. rewrite nth_error_app2 by lia. rewrite L. now replace (54 + (4 * i + n) - 54)%nat with (4 * i + n)%nat by lia. }
  rewrite (K 2 2%nat (q_red q)), (K 1 1%nat (q_green q)), (K 0 0%nat (q_blue q)), (K 3 3%nat (q_res q)); try lia; try assumption; [now destruct q|now rewrite Nat.add_0_r].
Qed.

(** ** The pixels *)
Lemma scan_is p x : scan_width (the_bmp p x) = Z.of_nat (scan p).
Proof.
  unfold scan_width, scan. cbn [the_bmp b_width b_bits]. rewrite Z.quot_div_nonneg by lia. rewrite Nat2Z.inj_mul, Nat2Z.inj_div, Nat2Z.inj_add, Nat2Z.inj_mul. 
  change (Z.of_nat 31) with 31. change (Z.of_nat 32) with 32. change (Z.of_nat 4) with 4. lia.
Qed.
Lemma concat_nth {A B} (g : A -> list B) n : forall l j i, (forall a, length (g a) = n) -> (i < n)%nat -> 
  nth_error (flat_map g l) (n * j + i) = match nth_error l j with Some a => nth_error (g a) i | None => None end.
Proof.
  induction l as [|a l IH]; intros j i Hg Hi; cbn [flat_map].
  - destruct (n * j + i)%nat; destruct j; reflexivity.
  - destruct j as [|j].
    + rewrite Nat.mul_0_r. cbn [Nat.add nth_error]. apply nth_error_app1. now rewrite Hg.
    + cbn [nth_error]. rewrite nth_error_app2 by (rewrite Hg; lia). rewrite Hg. rewrite <- IH by assumption. f_equal. lia.
Qed.
Lemma file_byte p x j i row : extras_ok p x -> nth_error (rev (p_rows p)) j = Some row -> (i < scan p)%nat ->
  byte_at (bmp_file p x) (offset p + Z.of_nat (scan p * j + i)) = nth_error (file_row p row) i.
Proof.
  intros Hx Hj Hi. destruct (file_split p x Hx) as (hdr & E & L). rewrite E.
  assert (Lp : zlen (palette_bytes p) = 4 * zlen (p_palette p)).
  { unfold palette_bytes. induction (p_palette p) as [|q l IH]; [reflexivity|]. cbn [flat_map]. rewrite zlen_app, IH, (zlen_cons q l). change (zlen [q_blue q; q_green q; q_red q; q_res q]) with 4. lia. }
  unfold byte_at, offset. pose proof (zlen_nonneg (p_palette p)). replace (_ <? 0) with false by lia.
  replace (Z.to_nat _) with (length hdr + (length (palette_bytes p) + (scan p * j + i)))%nat by (unfold zlen in *; lia).
  rewrite !nth_error_app2 by lia. replace (_ - _ - _)%nat with (scan p * j + i)%nat by lia.
  unfold pixel_data. rewrite (concat_nth _ (scan p)); [now rewrite Hj|intros; unfold file_row; apply bytes_len|exact Hi].
Qed.

(** Row [row] of the part [r], counted from its bottom. *)
Lemma bits_at_is p x r row i data s : extras_ok p x -> 0 <= r_top r -> 0 <= row < r_h r -> (i < scan p)%nat ->
  nth_error (rev (p_rows p)) (Z.to_nat (r_top r + row)) = Some data ->
  bits_at (the_bmp p x) r row (Z.of_nat i) s = Ok (number (firstn 8 (skipn (8 * i) (fill (8 * scan p) 0 (flat_map (pixel_bits (p_depth p)) data))))) s.
Proof.
  intros Hx Ht Hr Hi Hd. unfold bits_at. cbv zeta. rewrite scan_is.
  replace ((0 <=? row * Z.of_nat (scan p) + Z.of_nat i) && (row * Z.of_nat (scan p) + Z.of_nat i <? Z.of_nat (scan p) * r_h r)) with true by nia.
  cbn [b_file b_off the_bmp]. replace (offset p + Z.of_nat (scan p) * r_top r + (row * Z.of_nat (scan p) + Z.of_nat i)) with
    (offset p + Z.of_nat (scan p * Z.to_nat (r_top r + row) + i)) by nia.
  rewrite (file_byte p x _ i data Hx Hd Hi). unfold file_row. rewrite bytes_nth by exact Hi. reflexivity.
Qed.
Lemma depth_scan p n : (n < p_width p)%nat -> (8 * scan p >= p_depth p * p_width p)%nat.
Proof. intros _. unfold scan. pose proof (Nat.div_mod (p_width p * p_depth p + 31) 32). pose proof (Nat.mod_upper_bound (p_width p * p_depth p + 31) 32). lia. Qed.
Lemma pixel_is p x r row c data s : picture_ok p -> extras_ok p x -> 0 <= r_top r -> 0 <= row < r_h r ->
  nth_error (rev (p_rows p)) (Z.to_nat (r_top r + row)) = Some data -> (c < p_width p)%nat ->
  pixel (the_bmp p x) (p_palette p) r row (Z.of_nat (c * p_depth p)) s = Ok (colour p (nth c data 0)) s.
Proof.
  intros Hp Hx Ht Hr Hd Hc. destruct Hp as (D & Fr & Fi & P24 & Fp).
  assert (Hin : In data (p_rows p)) by (apply in_rev; eapply nth_error_In; exact Hd).
  rewrite Forall_forall in Fr. destruct (Fr data Hin) as (Ld & Fv).
  assert (Hv : 0 <= nth c data 0 < 2 ^ Z.of_nat (p_depth p)) by (rewrite Forall_forall in Fv; apply Fv, nth_In; lia).
  pose proof (depth_scan p c Hc) as Hs.
  assert (Hslice : firstn (p_depth p) (skipn (c * p_depth p) (fill (8 * scan p) 0 (flat_map (pixel_bits (p_depth p)) data))) = pixel_bits (p_depth p) (nth c data 0))
    by (apply row_slice; lia).
  assert (Fb : Forall bit (fill (8 * scan p) 0 (flat_map (pixel_bits (p_depth p)) data))) by apply fill_bits, flat_bits.
  assert (Lf : length (fill (8 * scan p) 0 (flat_map (pixel_bits (p_depth p)) data)) = (8 * scan p)%nat) by (apply fill_len; rewrite flat_len; lia).
  set (B := fill (8 * scan p) 0 (flat_map (pixel_bits (p_depth p)) data)) in *.
  unfold pixel. cbn [b_bits b_used the_bmp]. cbv zeta. destruct (Nat.eq_dec (p_depth p) 24) as [E24|N24].
  - assert (Hu : x_used x = 0) by (destruct Hx as (_ & _ & _ & _ & [(Hu & _)|(_ & N & _)]); [exact Hu|contradiction]).
    rewrite Hu, E24. change ((Z.of_nat 24 <? 16) || negb (0 =? 0)) with false. cbv iota. change (Z.to_nat (Z.of_nat 24 / 8)) with 3%nat.
    change (Z.of_nat 24 / 3) with 8. change (31 <=? 2 * 8) with false. cbv iota. rewrite E24 in Hslice, Hv, Hs.
    set (v := nth c data 0) in *.
    assert (Hb : forall j, (j < 3)%nat -> number (firstn 8 (skipn (8 * (3 * c + j)) B)) = v / 256 ^ Z.of_nat (2 - j) mod 256).
    { intros j Hj. replace (8 * (3 * c + j))%nat with (c * 24 + 8 * j)%nat by lia. rewrite <- (slice_slice 8 (8 * j) 24) by lia. rewrite Hslice.
      change 24%nat with (8 + (8 + 8))%nat. rewrite !bits_app. destruct j as [|[|[|j]]]; [| | |lia].
      - change (8 * 0)%nat with 0%nat. cbn [skipn]. rewrite (firstn_app 8), bits_len, firstn_all2 by (now rewrite bits_len). cbn [Nat.sub firstn]. rewrite app_nil_r, number_bits_mod. reflexivity.
      - change (8 * 1)%nat with 8%nat. rewrite (skipn_app 8), bits_len, skipn_all2 by (now rewrite bits_len). cbn [Nat.sub skipn app].
        rewrite (firstn_app 8), bits_len, firstn_all2 by (now rewrite bits_len). cbn [Nat.sub firstn]. rewrite app_nil_r, number_bits_mod. reflexivity.
      - change (8 * 2)%nat with 16%nat. rewrite app_assoc, (skipn_app 16), app_length, !bits_len, skipn_all2 by (rewrite app_length, !bits_len; lia). cbn [Nat.sub Nat.add skipn app].
        rewrite firstn_all2 by (now rewrite bits_len). rewrite number_bits_mod. change (2 - 2)%nat with 0%nat. change (256 ^ Z.of_nat 0) with 1. now rewrite Z.div_1_r. }
    assert (Hr3 : forall j, (j < 3)%nat -> bits_at (the_bmp p x) r row (Z.of_nat (3 * c) + Z.of_nat j) s = Ok (v / 256 ^ Z.of_nat (2 - j) mod 256) s).
    { intros j Hj. rewrite <- (Hb j Hj). rewrite <- Nat2Z.inj_add. rewrite (bits_at_is p x r row (3 * c + j) data); auto; lia. }
    replace (Z.quot (Z.of_nat (c * 24)) 8) with (Z.of_nat (3 * c) + Z.of_nat 0) by (rewrite Z.quot_div_nonneg by lia; replace (Z.of_nat (c * 24)) with (Z.of_nat (3 * c) * 8) by lia; rewrite Z.div_mul; lia).
    cbn [pixel_bytes]. unfold bind. rewrite (Hr3 0%nat) by lia.
    replace (Z.of_nat (3 * c) + Z.of_nat 0 + 1) with (Z.of_nat (3 * c) + Z.of_nat 1) by lia. rewrite (Hr3 1%nat) by lia.
    replace (Z.of_nat (3 * c) + Z.of_nat 1 + 1) with (Z.of_nat (3 * c) + Z.of_nat 2) by lia. rewrite (Hr3 2%nat) by lia.
    unfold ret. f_equal. unfold colour. rewrite E24. cbn [Nat.eqb].
    change (256 ^ Z.of_nat (2 - 0)) with 65536. change (256 ^ Z.of_nat (2 - 1)) with 256. change (256 ^ Z.of_nat (2 - 2)) with 1. rewrite Z.div_1_r.
    change (2 ^ Z.of_nat 24) with 16777216 in Hv.
    assert (Hq : v / 65536 = v / 256 / 256) by (rewrite Z.div_div by lia; reflexivity).
    pose proof (Z.div_mod v 256 ltac:(lia)) as M0. pose proof (Z.div_mod (v / 256) 256 ltac:(lia)) as M1.
    pose proof (Z.mod_pos_bound v 256 ltac:(lia)). pose proof (Z.mod_pos_bound (v / 256) 256 ltac:(lia)).
    assert (Hs0 : v / 65536 mod 256 = v / 65536) by (apply Z.mod_small; split; [apply Z.div_pos|apply Z.div_lt_upper_bound]; lia).
    assert (Ev : u32 (Z.shiftl (u32 (Z.shiftl (u32 (Z.shiftl 0 8 + v / 65536 mod 256)) 8 + v / 256 mod 256)) 8 + v mod 256) = v).
    { unfold u32. rewrite !Z.shiftl_mul_pow2 by lia. change (2 ^ 8) with 256. rewrite Hs0. rewrite (Z.mod_small (0 * 256 + _)) by (rewrite Hq; lia).
      rewrite (Z.mod_small ((0 * 256 + v / 65536) * 256 + _)) by (rewrite Hq; lia). rewrite Z.mod_small by (rewrite Hq; lia). rewrite Hq. lia. }
    rewrite Ev. change (Z.shiftl 1 8 - 1) with (Z.ones 8). rewrite !Z.land_ones by lia. rewrite !Z.shiftr_div_pow2 by lia. change (2 ^ 8) with 256. change (2 ^ (2 * 8)) with 65536.
    unfold u8. rewrite !Z.mod_mod by lia. reflexivity.
  - assert (Hd8 : (p_depth p <= 8)%nat /\ (8 mod p_depth p = 0)%nat /\ (0 < p_depth p)%nat) by (destruct D as [<-|[<-|[<-|[<-|[E|[]]]]]]; [cbn; lia..|lia]).
    destruct Hd8 as (Hd8 & Hdiv & Hpos).
    assert (Fi' : nth c data 0 < zlen (p_palette p)).
    { specialize (Fi N24). rewrite Forall_forall in Fi. specialize (Fi data Hin). rewrite Forall_forall in Fi. apply Fi, nth_In. lia. }
    replace ((Z.of_nat (p_depth p) <? 16) || negb (x_used x =? 0)) with true by lia.
    assert (Hod : (c * p_depth p mod 8 + p_depth p <= 8)%nat).
    { clear - D N24. destruct D as [E|[E|[E|[E|[E|[]]]]]]; [| | | |congruence]; rewrite <- E; clear;
      pose proof (Nat.div_mod c 8 ltac:(lia)); pose proof (Nat.mod_upper_bound c 8 ltac:(lia));
      match goal with |- (?t mod 8 + _ <= 8)%nat => pose proof (Nat.div_mod t 8 ltac:(lia)); pose proof (Nat.mod_upper_bound t 8 ltac:(lia)) end; lia. }
    unfold colour. replace (Nat.eqb (p_depth p) 24) with false by (symmetry; now apply Nat.eqb_neq).
    set (d := p_depth p) in *. set (i := (c * d / 8)%nat). set (o := (c * d mod 8)%nat) in *.
    assert (Eo : (c * d = 8 * i + o)%nat) by (apply Nat.div_mod; lia). 
    assert (Ez : Z.rem (Z.of_nat (c * d)) 8 = Z.of_nat o) by (rewrite Z.rem_mod_nonneg by lia; unfold o; rewrite Nat2Z.inj_mod; reflexivity).
    assert (Eq : Z.quot (Z.of_nat (c * d)) 8 = Z.of_nat i) by (rewrite Z.quot_div_nonneg by lia; unfold i; rewrite Nat2Z.inj_div; reflexivity).
    rewrite Ez, Eq. replace ((8 - Z.of_nat d - Z.of_nat o <? 0) || (31 <=? Z.of_nat d)) with false by lia.
    unfold bind. rewrite (bits_at_is p x r row i data) by (try assumption; try lia; nia). fold d. fold B.
    set (W := firstn 8 (skipn (8 * i) B)).
    assert (EW : W = firstn o W ++ pixel_bits d (nth c data 0) ++ skipn (o + d) W).
    { rewrite <- Hslice, Eo. rewrite <- (slice_slice d o 8) by lia. fold W. rewrite <- skip_skip. rewrite firstn_skipn. now rewrite firstn_skipn. }
    assert (LW : length W = 8%nat) by (unfold W; rewrite firstn_length, skipn_length, Lf; nia).
    assert (FW : Forall bit W) by (unfold W; now apply Forall_slice).
    assert (LT : zlen (skipn (o + d) W) = 8 - Z.of_nat d - Z.of_nat o) by (unfold zlen; rewrite skipn_length, LW; lia).
    pose proof (field_of_byte (firstn o W) (pixel_bits d (nth c data 0)) (skipn (o + d) W)) as Hf. rewrite <- EW in Hf. specialize (Hf FW).
    rewrite LT in Hf. unfold zlen in Hf. rewrite bits_len in Hf.
    assert (Em : u8 (Z.shiftl (Z.shiftl 1 (Z.of_nat d) - 1) (8 - Z.of_nat d - Z.of_nat o)) = Z.shiftl (2 ^ Z.of_nat d - 1) (8 - Z.of_nat d - Z.of_nat o)).
    { rewrite Z.shiftl_1_l. unfold u8. apply Z.mod_small. rewrite Z.shiftl_mul_pow2 by lia.
      assert (P1 : 0 < 2 ^ Z.of_nat d) by (apply Z.pow_pos_nonneg; lia). assert (P2 : 0 < 2 ^ (8 - Z.of_nat d - Z.of_nat o)) by (apply Z.pow_pos_nonneg; lia).
      assert (P3 : 2 ^ Z.of_nat d * 2 ^ (8 - Z.of_nat d - Z.of_nat o) <= 256) by (rewrite <- Z.pow_add_r by lia; change 256 with (2 ^ 8); apply Z.pow_le_mono_r; lia). nia. }
    rewrite Em, Hf, number_bits by exact Hv.
    rewrite (nth_error_nth' (p_palette p) (mkrgb 0 0 0 0)) by (unfold zlen in Fi'; lia). reflexivity.
Qed.
