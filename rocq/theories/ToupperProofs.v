(** The word-parallel upper-casing routine computes the character-wise one. *)
From Verif Require Import Base BaseProofs ToupperModel.

Definition all_bytes : list Z := map Z.of_nat (seq 0 256).
Lemma all_bytes_in b : is_byte b -> In b all_bytes.
Proof.
  intros H. unfold all_bytes. apply in_map_iff. exists (Z.to_nat b).
  split; [unfold is_byte in H; lia|]. apply in_seq. unfold is_byte in H. lia.
Qed.
Lemma byte_check (f : Z -> bool) : forallb f all_bytes = true -> forall b, is_byte b -> f b = true.
Proof. intros H b Hb. rewrite forallb_forall in H. apply H, all_bytes_in, Hb. Qed.

Lemma land_byte a b x y :
  is_byte a -> is_byte b -> 0 <= x -> 0 <= y ->
  Z.land (a + 256 * x) (b + 256 * y) = Z.land a b + 256 * Z.land x y.
Proof.
  intros Ha Hb Hx Hy.
  assert (Hl : 0 <= Z.land a b < 256).
  { split; [apply Z.land_nonneg; unfold is_byte in *; lia|].
    destruct (Z.eq_dec (Z.land a b) 0) as [->|Hn]; [lia|].
    assert (0 <= Z.land a b) by (apply Z.land_nonneg; unfold is_byte in *; lia).
    change 256 with (2 ^ 8). apply Z.log2_lt_pow2; [lia|].
    eapply Z.le_lt_trans; [apply Z.log2_land; unfold is_byte in *; lia|].
    assert (Z.log2 a < 8) by (destruct (Z.eq_dec a 0) as [->|]; [reflexivity|apply Z.log2_lt_pow2; unfold is_byte in *; simpl; lia]).
    lia. }
  assert (E : forall u v, is_byte u -> u + 256 * v = Z.lor u (Z.shiftl v 8)).
  { intros u v Hu. rewrite Z.shiftl_mul_pow2 by lia. change (2 ^ 8) with 256.
    rewrite (Z.mul_comm v). symmetry. apply Z.bits_inj'. intros n Hn.
    rewrite Z.lor_spec.
    replace (256 * v) with (Z.shiftl v 8) by (rewrite Z.shiftl_mul_pow2 by lia; change (2^8) with 256; ring).
    rewrite Z.shiftl_spec by lia.
    destruct (Z_lt_le_dec n 8) as [L|L].
    - rewrite (Z.testbit_neg_r v (n - 8)) by lia. rewrite orb_false_r.
      rewrite <- (Z.mod_pow2_bits_low (u + Z.shiftl v 8) 8 n) by lia.
      rewrite Z.shiftl_mul_pow2 by lia. rewrite Z.mod_add by lia.
      rewrite Z.mod_small by (unfold is_byte in Hu; simpl; lia). reflexivity.
    - assert (Z.testbit u n = false) as ->.
      { destruct (Z.eq_dec u 0) as [->|]; [apply Z.bits_0|].
        apply Z.bits_above_log2; [unfold is_byte in Hu; lia|].
        assert (Z.log2 u < 8) by (apply Z.log2_lt_pow2; unfold is_byte in Hu; simpl; lia). lia. }
      simpl. replace n with ((n - 8) + 8) at 2 by lia. rewrite <- Z.div_pow2_bits by lia.
      rewrite Z.shiftl_mul_pow2 by lia. rewrite Z.div_add by lia.
      rewrite Z.div_small by (unfold is_byte in Hu; simpl; lia). reflexivity. }
  rewrite !E by assumption.
  apply Z.bits_inj'. intros n Hn.
  rewrite Z.land_spec, !Z.lor_spec, Z.land_spec, !Z.shiftl_spec, Z.land_spec by lia.
  assert (Hh : forall u, is_byte u -> 8 <= n -> Z.testbit u n = false).
  { intros u Hu L. destruct (Z.eq_dec u 0) as [->|]; [apply Z.bits_0|].
    apply Z.bits_above_log2; [unfold is_byte in Hu; lia|].
    assert (Z.log2 u < 8) by (apply Z.log2_lt_pow2; unfold is_byte in Hu; simpl; lia). lia. }
  destruct (Z_lt_le_dec n 8) as [L|L].
  - rewrite !(Z.testbit_neg_r _ (n - 8)) by lia. simpl. now rewrite !orb_false_r.
  - rewrite !Hh by (assumption || lia). reflexivity.
Qed.

Lemma word4_nonneg a b c d : is_byte a -> is_byte b -> is_byte c -> is_byte d -> 0 <= word4 a b c d < 4294967296.
Proof. unfold is_byte, word4. lia. Qed.

Lemma land_word a b c d a' b' c' d' :
  is_byte a -> is_byte b -> is_byte c -> is_byte d ->
  is_byte a' -> is_byte b' -> is_byte c' -> is_byte d' ->
  Z.land (word4 a b c d) (word4 a' b' c' d') =
  word4 (Z.land a a') (Z.land b b') (Z.land c c') (Z.land d d').
Proof.
  intros. unfold word4. repeat (rewrite land_byte; [|assumption|assumption|unfold is_byte in *; lia|unfold is_byte in *; lia]). reflexivity.
Qed.

Lemma shift_mask_byte a x m : is_byte a -> 0 <= x -> 0 <= m ->
  Z.land (Z.shiftr (a + 256 * x) 2) (32 + 256 * m) =
  Z.land (Z.shiftr a 2) 32 + 256 * Z.land (Z.shiftr x 2) m.
Proof.
  intros Ha Hx Hm. rewrite !Z.shiftr_div_pow2 by lia. change (2 ^ 2) with 4.
  replace ((a + 256 * x) / 4) with ((a / 4 + 64 * (x mod 4)) + 256 * (x / 4)).
  2:{ unfold is_byte in Ha. lia. }
  rewrite land_byte; try (unfold is_byte in *; lia).
  f_equal. assert (Hr : 0 <= x mod 4 < 4) by (apply Z.mod_pos_bound; lia).
  generalize dependent (x mod 4). intros r Hr.
  assert (Hc : forallb (fun b => forallb (fun r => Z.land (b / 4 + 64 * r) 32 =? Z.land (b / 4) 32) [0;1;2;3]) all_bytes = true)
    by (vm_compute; reflexivity).
  pose proof (byte_check _ Hc a Ha) as H. simpl in H.
  assert (r = 0 \/ r = 1 \/ r = 2 \/ r = 3) as [->|[->|[->| ->]]] by lia; lia.
Qed.

Lemma shift_mask_word a b c d :
  is_byte a -> is_byte b -> is_byte c -> is_byte d ->
  Z.land (Z.shiftr (word4 a b c d) 2) (word4 32 32 32 32) =
  word4 (Z.land (Z.shiftr a 2) 32) (Z.land (Z.shiftr b 2) 32) (Z.land (Z.shiftr c 2) 32) (Z.land (Z.shiftr d 2) 32).
Proof.
  intros. unfold word4. repeat (rewrite shift_mask_byte; [|assumption|unfold is_byte in *; lia|lia]). reflexivity.
Qed.

(** What happens to one byte. *)
Definition lane1 (b : Z) : Z := Z.land 127 b + 5.
Definition lane2 (b : Z) : Z := Z.land 127 (lane1 b) + 26.
Definition lane3 (b : Z) : Z := Z.land (lane2 b) (255 - b).
Definition lane4 (b : Z) : Z := Z.land (Z.shiftr (lane3 b) 2) 32.
Definition lane_ok (b : Z) : bool :=
  (0 <=? lane1 b) && (lane1 b <? 256) && (0 <=? lane2 b) && (lane2 b <? 256) &&
  (0 <=? lane3 b) && (lane3 b <? 256) && (0 <=? lane4 b) && (lane4 b <=? b) &&
  (b - lane4 b =? toupper b) && (nth (Z.to_nat b) to_upper_map 0 =? toupper b).
Lemma lanes b : is_byte b ->
  is_byte (lane1 b) /\ is_byte (lane2 b) /\ is_byte (lane3 b) /\ 0 <= lane4 b <= b /\
  b - lane4 b = toupper b /\ nth (Z.to_nat b) to_upper_map 0 = toupper b.
Proof.
  intros Hb. assert (H : lane_ok b = true).
  { apply (byte_check lane_ok); [vm_compute; reflexivity|assumption]. }
  unfold lane_ok in H. unfold is_byte. lia.
Qed.

Lemma upper_word_lanes a b c d :
  is_byte a -> is_byte b -> is_byte c -> is_byte d ->
  upper_word (word4 a b c d) = word4 (toupper a) (toupper b) (toupper c) (toupper d).
Proof.
  intros Ha Hb Hc Hd.
  destruct (lanes a Ha) as (A1 & A2 & A3 & A4 & A5 & _).
  destruct (lanes b Hb) as (B1 & B2 & B3 & B4 & B5 & _).
  destruct (lanes c Hc) as (C1 & C2 & C3 & C4 & C5 & _).
  destruct (lanes d Hd) as (D1 & D2 & D3 & D4 & D5 & _).
  unfold upper_word.
  change 2139062143 with (word4 127 127 127 127).
  assert (S : is_byte 127) by (unfold is_byte; lia).
  assert (E1 : u32_add (Z.land (word4 127 127 127 127) (word4 a b c d)) 84215045 =
               word4 (lane1 a) (lane1 b) (lane1 c) (lane1 d)).
  { rewrite land_word by assumption. unfold u32_add.
    replace (word4 (Z.land 127 a) (Z.land 127 b) (Z.land 127 c) (Z.land 127 d) + 84215045)
      with (word4 (lane1 a) (lane1 b) (lane1 c) (lane1 d)) by (unfold word4, lane1; ring).
    apply Z.mod_small, word4_nonneg; assumption. }
  rewrite E1. clear E1.
  assert (E2 : u32_add (Z.land (word4 127 127 127 127) (word4 (lane1 a) (lane1 b) (lane1 c) (lane1 d))) 437918234 =
               word4 (lane2 a) (lane2 b) (lane2 c) (lane2 d)).
  { rewrite land_word by assumption. unfold u32_add.
    replace (word4 (Z.land 127 (lane1 a)) (Z.land 127 (lane1 b)) (Z.land 127 (lane1 c)) (Z.land 127 (lane1 d)) + 437918234)
      with (word4 (lane2 a) (lane2 b) (lane2 c) (lane2 d)) by (unfold word4, lane2; ring).
    apply Z.mod_small, word4_nonneg; assumption. }
  rewrite E2. clear E2.
  assert (E3 : u32_not (word4 a b c d) = word4 (255 - a) (255 - b) (255 - c) (255 - d))
    by (unfold u32_not, word4; ring).
  rewrite E3. clear E3.
  rewrite land_word by (assumption || (unfold is_byte in *; lia)).
  fold (lane3 a) (lane3 b) (lane3 c) (lane3 d).
  change 538976288 with (word4 32 32 32 32).
  rewrite shift_mask_word by assumption.
  fold (lane4 a) (lane4 b) (lane4 c) (lane4 d).
  unfold u32_sub.
  replace (word4 a b c d - word4 (lane4 a) (lane4 b) (lane4 c) (lane4 d))
    with (word4 (toupper a) (toupper b) (toupper c) (toupper d))
    by (rewrite <- A5, <- B5, <- C5, <- D5; unfold word4; ring).
  apply Z.mod_small, word4_nonneg; unfold is_byte in *; lia.
Qed.

Lemma bytes4_word4 a b c d :
  is_byte a -> is_byte b -> is_byte c -> is_byte d -> bytes4 (word4 a b c d) = [a; b; c; d].
Proof. unfold is_byte, bytes4, word4. intros. repeat f_equal; lia. Qed.

Lemma toupper_byte b : is_byte b -> is_byte (toupper b).
Proof. unfold is_byte, toupper, islower. intros. destruct ((97 <=? b) && (b <=? 122)) eqn:E; lia. Qed.

Lemma modp_toupper_ok : forall n s, (length s <= n)%nat -> bytes s -> modp_toupper s = map toupper s.
Proof.
  assert (Hm : forall s, bytes s -> map (fun c => nth (Z.to_nat c) to_upper_map 0) s = map toupper s).
  { intros s Hs. apply map_ext_in. intros c Hc. unfold bytes in Hs. rewrite Forall_forall in Hs.
    destruct (lanes c (Hs c Hc)) as (_ & _ & _ & _ & _ & E). exact E. }
  induction n as [|n IH]; intros s Hn Hs.
  - destruct s; [reflexivity|simpl in Hn; lia].
  - destruct s as [|a [|b [|c [|d s]]]]; try (apply Hm; assumption).
    unfold bytes in Hs. inversion Hs as [|? ? Ha Hs1]; subst. inversion Hs1 as [|? ? Hb Hs2]; subst.
    inversion Hs2 as [|? ? Hc Hs3]; subst. inversion Hs3 as [|? ? Hd Hs4]; subst.
    cbn [modp_toupper]. rewrite upper_word_lanes, bytes4_word4 by auto using toupper_byte.
    rewrite IH; [reflexivity|simpl in Hn; lia|assumption].
Qed.
