(** Proofs about pass_two.cpp. *)
From Verif Require Import Base BaseProofs State UtilsModel ErrorsModel StorageModel ParserModel PassTwoModel
  MonadProofs PassTwoSpec.

Lemma put_at_splice m : forall i v, put_at i v m = splice m i [v].
Proof.
  induction m as [|x m IH]; intros i v; destruct i as [|i]; unfold splice; simpl; try reflexivity.
  - f_equal. clear. induction i as [|i IH]; simpl; [reflexivity|]. rewrite IH. reflexivity.
  - f_equal. rewrite IH. reflexivity.
Qed.

Lemma splice_length m i bs : length (splice m i bs) = Nat.max (length m) (i + length bs).
Proof. unfold splice. rewrite !app_length, firstn_length, repeat_length, skipn_length. lia. Qed.

Lemma nth_repeat_0 k i : nth i (repeat 0 k) 0 = 0.
Proof. revert i. induction k; intros [|i]; simpl; auto. Qed.

Lemma splice_nth m i bs j : bs <> [] ->
  nth j (splice m i bs) 0 =
  if (Nat.leb i j && Nat.ltb j (i + length bs))%bool then nth (j - i) bs 0 else nth j m 0.
Proof.
  intros Hb. unfold splice.
  assert (Hl : length (firstn i m ++ repeat 0 (i - length m)) = i)
    by (rewrite app_length, firstn_length, repeat_length; lia).
  rewrite app_assoc.
  destruct (Nat.leb_spec i j) as [H|H]; simpl.
  - rewrite app_nth2 by lia. rewrite Hl.
    destruct (Nat.ltb_spec j (i + length bs)) as [H2|H2]; simpl.
    + rewrite app_nth1 by lia. reflexivity.
    + rewrite app_nth2 by lia. rewrite <- (firstn_skipn (i + length bs) m) at 2.
      destruct (Nat.le_gt_cases (length m) (i + length bs)) as [H3|H3].
      * rewrite skipn_all2 by lia. rewrite app_nil_r.
        rewrite (nth_overflow []) by (simpl; lia).
        rewrite nth_overflow by (rewrite firstn_length; lia). reflexivity.
      * rewrite (app_nth2 (firstn _ _)) by (rewrite firstn_length; lia).
        rewrite firstn_length. f_equal. lia.
  - rewrite app_nth1 by lia.
    destruct (Nat.lt_ge_cases j (length m)) as [H3|H3].
    + rewrite app_nth1 by (rewrite firstn_length; lia).
      rewrite <- (firstn_skipn i m) at 2. rewrite app_nth1 by (rewrite firstn_length; lia). reflexivity.
    + rewrite app_nth2 by (rewrite firstn_length; lia). rewrite nth_repeat_0.
      now rewrite nth_overflow by lia.
Qed.

Lemma splice_app m i a b : a <> [] -> splice (splice m i a) (i + length a) b = splice m i (a ++ b).
Proof.
  intros Ha.
  destruct b as [|b0 b].
  - rewrite app_nil_r. unfold splice at 1. rewrite splice_length. simpl.
    replace (i + length a - Nat.max (length m) (i + length a))%nat with 0%nat by lia.
    simpl. replace (i + length a + 0)%nat with (i + length a)%nat by lia.
    apply firstn_skipn.
  - remember (b0 :: b) as bb eqn:Eb. assert (Hb : bb <> []) by (subst; discriminate). clear Eb.
    apply nth_ext with 0 0.
    + rewrite !splice_length, app_length. lia.
    + intros j _. rewrite splice_nth by assumption. rewrite (splice_nth m i (a ++ bb)).
      2:{ destruct a; [congruence|discriminate]. }
      rewrite splice_nth by assumption. rewrite app_length.
      destruct (Nat.leb_spec (i + length a) j); simpl.
      * destruct (Nat.ltb_spec j (i + length a + length bb)); simpl.
        -- replace (Nat.leb i j) with true by (symmetry; apply Nat.leb_le; lia).
           replace (Nat.ltb j (i + (length a + length bb))) with true by (symmetry; apply Nat.ltb_lt; lia).
           simpl. rewrite app_nth2 by lia. f_equal. lia.
        -- replace (Nat.ltb j (i + length a)) with false by (symmetry; apply Nat.ltb_ge; lia).
           replace (Nat.ltb j (i + (length a + length bb))) with false by (symmetry; apply Nat.ltb_ge; lia).
           rewrite !andb_false_r. reflexivity.
      * destruct (Nat.leb_spec i j); simpl; [|reflexivity].
        replace (Nat.ltb j (i + length a)) with true by (symmetry; apply Nat.ltb_lt; lia).
        replace (Nat.ltb j (i + (length a + length bb))) with true by (symmetry; apply Nat.ltb_lt; lia).
        rewrite app_nth1 by lia. reflexivity.
Qed.

Lemma write_out_emitted v s : room 1 s -> write_out v s = Ok tt (emitted [u8 v] s).
Proof.
  intros [H1 H2]. unfold write_out. rewrite bind_get.
  replace ((0 <=? s_pos s) && (s_pos s <? OUTPUT_BUF_SIZE)) with true
    by (unfold OUTPUT_BUF_SIZE; symmetry; lia).
  rewrite bind_get, bind_upd. unfold upd, emitted. rewrite put_at_splice. reflexivity.
Qed.

Lemma emitted_app a b s : a <> [] -> 0 <= s_pos s -> emitted b (emitted a s) = emitted (a ++ b) s.
Proof.
  intros Ha Hp. unfold emitted. cbn [s_pos s_mem set_pos set_mem].
  replace (Z.to_nat (s_pos s + zlen a)) with (Z.to_nat (s_pos s) + length a)%nat by (unfold zlen; lia).
  rewrite splice_app by assumption.
  replace (s_pos s + zlen a + zlen b) with (s_pos s + zlen (a ++ b)).
  - reflexivity.
  - unfold zlen. rewrite app_length. lia.
Qed.

Lemma room_emitted n k bs s : room (zlen bs + n) s -> k = n -> room k (emitted bs s).
Proof. intros [H1 H2] ->. unfold room, emitted. cbn [s_pos set_pos set_mem]. unfold zlen in *. lia. Qed.

Lemma write_all_emitted l : forall s, l <> [] -> room (zlen l) s ->
  write_all l s = Ok tt (emitted (map u8 l) s).
Proof.
  induction l as [|v l IH]; intros s Hl Hr; [congruence|].
  cbn [write_all map].
  rewrite (bind_ok _ _ s tt (emitted [u8 v] s)).
  2:{ apply write_out_emitted. unfold room, zlen in *. simpl in Hr. lia. }
  destruct l as [|w l].
  - reflexivity.
  - rewrite IH.
    + rewrite emitted_app; [reflexivity|discriminate|apply Hr].
    + discriminate.
    + apply room_emitted with (zlen (w :: l)); [|reflexivity].
      unfold room, zlen in *. simpl in *. lia.
Qed.

Lemma emitted_room bs n s : room n s -> room (n - zlen bs) (emitted bs s).
Proof. intros [H1 H2]. unfold room, emitted. cbn [s_pos set_pos set_mem]. unfold zlen. lia. Qed.

(** What [write_arg] does, argument type by argument type. *)
Lemma write_arg_8 C v z o s : room 1 s ->
  write_arg C v ARG_NUM_8 z o s =
  Ok tt (emitted [v mod 256] (if (v <? -128) || (255 <? v) then noted true 2048 s else s)).
Proof.
  intros Hr. unfold write_arg.
  rewrite land_255.
  destruct ((v <? -128) || (255 <? v)); cbn [whenM].
  - rewrite (bind_ok _ _ s tt (noted true 2048 s)) by reflexivity.
    rewrite write_out_emitted by exact Hr. unfold u8. rewrite Z.mod_mod by lia. reflexivity.
  - rewrite bind_ret. rewrite write_out_emitted by exact Hr.
    unfold u8. rewrite Z.mod_mod by lia. reflexivity.
Qed.

Lemma shiftr_16 z : Z.shiftr z 16 = z / 65536.
Proof. rewrite Z.shiftr_div_pow2 by lia. reflexivity. Qed.
Lemma u8_mod z : u8 (z mod 256) = z mod 256.
Proof. unfold u8. apply Z.mod_mod. lia. Qed.

Lemma write_all_chain a b s : a <> [] -> b <> [] -> room (zlen (a ++ b)) s ->
  (write_all a ;;; write_all b) s = write_all (a ++ b) s.
Proof.
  intros Ha Hb Hr. assert (Hz : zlen (a ++ b) = zlen a + zlen b) by (unfold zlen; rewrite app_length; lia).
  rewrite (bind_ok _ _ s tt (emitted (map u8 a) s)).
  2:{ apply write_all_emitted; [assumption|]. destruct Hr. unfold room, zlen in *. lia. }
  rewrite write_all_emitted; [|assumption|].
  2:{ destruct Hr. unfold room, emitted. cbn [s_pos set_pos set_mem].
      replace (zlen (map u8 a)) with (zlen a) by (unfold zlen; now rewrite map_length).
      unfold zlen in *. lia. }
  rewrite write_all_emitted.
  - rewrite emitted_app, map_app; [reflexivity| |apply Hr]. destruct a; [congruence|discriminate].
  - destruct a; [congruence|discriminate].
  - exact Hr.
Qed.

Lemma bind_write_out {B} v s (k : unit -> M B) : room 1 s ->
  bind (write_out v) k s = k tt (emitted [u8 v] s).
Proof. intros H. apply bind_ok. now apply write_out_emitted. Qed.

Lemma write_arg_16 C v z o s : room 2 s ->
  write_arg C v ARG_NUM_16 z o s =
  Ok tt (emitted [v mod 256; v / 256 mod 256]
           (if c_ez80 C && ((v <? -32768) || (65535 <? v)) then noted true 2049 s else s)).
Proof.
  intros Hr. unfold write_arg. rewrite shiftr_8, !land_255.
  set (b := c_ez80 C && ((v <? -32768) || (65535 <? v))).
  set (s1 := if b then noted true 2049 s else s).
  assert (H1 : room 2 s1) by (subst s1; destruct b; exact Hr).
  rewrite (bind_ok _ _ s tt s1) by (subst s1; destruct b; reflexivity).
  rewrite bind_write_out by (destruct H1; split; lia).
  rewrite write_out_emitted.
  - rewrite emitted_app by (try discriminate; apply H1). rewrite !u8_mod. reflexivity.
  - apply room_emitted with 1; [exact H1|reflexivity].
Qed.

Lemma write_arg_24 C v z o s : room 3 s ->
  write_arg C v ARG_NUM_24 z o s =
  Ok tt (emitted [v mod 256; v / 256 mod 256; v / 65536 mod 256] s).
Proof.
  intros Hr. unfold write_arg. rewrite shiftr_8, shiftr_16, !land_255.
  rewrite bind_write_out by (destruct Hr; split; lia).
  rewrite bind_write_out by (apply room_emitted with 1; [destruct Hr; unfold room, zlen; simpl; lia|reflexivity]).
  rewrite emitted_app by (try discriminate; apply Hr).
  rewrite write_out_emitted.
  - rewrite emitted_app by (try discriminate; apply Hr). rewrite !u8_mod. reflexivity.
  - apply room_emitted with 1; [exact Hr|reflexivity].
Qed.

(** The address space of the processor. *)
Definition space (C : cfg) : Z := if c_ez80 C then 16777216 else 65536.

Lemma land_space C z :
  Z.land z (if c_ez80 C then 16777215 else 65535) = z mod space C.
Proof.
  unfold space. destruct (c_ez80 C).
  - change 16777215 with (Z.ones 24). rewrite Z.land_ones by lia. reflexivity.
  - change 65535 with (Z.ones 16). rewrite Z.land_ones by lia. reflexivity.
Qed.

Lemma write_arg_jump C v z o s : room 1 s -> 0 <= z <= 255 ->
  let d := v mod space C - (s_pc s mod space C + z) in
  write_arg C v ARG_ADDR_OFFSET z o s =
  if (-128 <=? d) && (d <=? 127) then Ok tt (emitted [d mod 256] s)
  else Ok tt (emitted [0] (noted false 288 s)).
Proof.
  intros Hr Hz d. unfold write_arg. rewrite bind_get. rewrite !land_space. fold d.
  assert (Hs : space C = 16777216 \/ space C = 65536) by (unfold space; destruct (c_ez80 C); auto).
  assert (Hd : -2147483648 <= d <= 2147483647).
  { subst d. destruct Hs as [-> | ->]; lia. }
  assert (Hw : wrap32 d = d) by (unfold wrap32; lia).
  rewrite Hw.
  destruct ((d <? -128) || (127 <? d)) eqn:E.
  - replace ((-128 <=? d) && (d <=? 127)) with false by lia.
    rewrite (bind_ok _ _ s tt (noted false 288 s)) by reflexivity.
    rewrite write_out_emitted by exact Hr. reflexivity.
  - replace ((-128 <=? d) && (d <=? 127)) with true by lia.
    rewrite write_out_emitted by exact Hr. rewrite land_255, u8_mod. reflexivity.
Qed.

Lemma write_arg_index C v z o s : room 1 s ->
  write_arg C v ARG_IX_IY_OFFSET z o s =
  if (-128 <=? v) && (v <=? 127) then Ok tt (emitted [v mod 256] s)
  else Ok tt (emitted [0] (noted false 289 s)).
Proof.
  intros Hr. unfold write_arg.
  destruct ((127 <? v) || (v <? -128)) eqn:E.
  - replace ((-128 <=? v) && (v <=? 127)) with false by lia.
    rewrite (bind_ok _ _ s tt (noted false 289 s)) by reflexivity.
    rewrite write_out_emitted by exact Hr. reflexivity.
  - replace ((-128 <=? v) && (v <=? 127)) with true by lia.
    rewrite write_out_emitted by exact Hr. rewrite land_255, u8_mod. reflexivity.
Qed.

Lemma land_7 z : Z.land z 7 = z mod 8.
Proof. change 7 with (Z.ones 3). rewrite Z.land_ones by lia. reflexivity. Qed.

Lemma write_arg_bit C v z o s : room 1 s ->
  write_arg C v ARG_BIT_NUM z o s =
  if (0 <=? v) && (v <=? 7) then Ok tt (emitted [u8 (Z.lor (v * 8) o)] s)
  else Ok tt (emitted [u8 o] (alarmed 2 s)).
Proof.
  intros Hr. unfold write_arg.
  destruct ((v <? 0) || (7 <? v)) eqn:E; cbn [whenM].
  - replace ((0 <=? v) && (v <=? 7)) with false by lia.
    rewrite (bind_ok _ _ s tt (alarmed 2 s)).
    + rewrite write_out_emitted by exact Hr. reflexivity.
    + unfold show_error, raise_exit, EXIT_ERRORS. rewrite bind_get. unfold upd, alarmed.
      destruct (Z.ltb_spec (s_exitc s) 2).
      * rewrite Z.max_l by lia. reflexivity.
      * rewrite Z.max_r by lia. reflexivity.
  - replace ((0 <=? v) && (v <=? 7)) with true by lia.
    rewrite bind_ret. rewrite write_out_emitted by exact Hr.
    rewrite land_7, Z.mod_small by lia. rewrite Z.shiftl_mul_pow2 by lia. reflexivity.
Qed.

Lemma write_arg_rst C v z o s : room 1 s ->
  write_arg C v ARG_RST z o s =
  if rst_ok v then Ok tt (emitted [v + 199] s) else Ok tt (noted false 295 s).
Proof.
  intros Hr. unfold write_arg. destruct (rst_ok v) eqn:E; [|reflexivity].
  rewrite write_out_emitted by exact Hr. unfold u8. f_equal. f_equal. f_equal.
  unfold rst_ok, memb in E. simpl in E. rewrite !orb_true_iff in E.
  rewrite Z.mod_small; [reflexivity|]. lia.
Qed.

(** Adding 199 leaves no reset vector a reset vector. *)
Lemma rst_ok_199 v : rst_ok v = true -> rst_ok (v + 199) = false.
Proof. intros E. unfold rst_ok, memb in *. simpl in *. rewrite !orb_true_iff in E. rewrite !orb_false_iff. lia. Qed.
