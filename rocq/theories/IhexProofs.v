(** Proofs about the Intel HEX writer. *)
From Verif Require Import BaseProofs IhexModel IhexSpec.

Definition hexs (bs : list Z) : list Z :=
  flat_map (fun b => [hexdig (b / 16); hexdig (b mod 16)]) bs.

Lemma hexval_hexdig d : 0 <= d < 16 -> hexval (hexdig d) = Some d.
Proof.
  intros H. unfold hexval, hexdig.
  destruct (d <? 10) eqn:E.
  - replace ((48 <=? 48 + d) && (48 + d <=? 57)) with true by lia. f_equal; lia.
  - replace ((48 <=? 55 + d) && (55 + d <=? 57)) with false by lia.
    replace ((65 <=? 55 + d) && (55 + d <=? 70)) with true by lia. f_equal; lia.
Qed.

Definition stops (l : list Z) : Prop := l = [] \/ exists r, l = 13 :: r.

Lemma hexpairs_stops l : stops l -> hexpairs l = ([], l).
Proof.
  intros [->|[r ->]]; [reflexivity|]. destruct r; reflexivity.
Qed.

Lemma hexpairs_hexs bs rest : bytes bs -> stops rest -> hexpairs (hexs bs ++ rest) = (bs, rest).
Proof.
  intros Hb Hs. induction Hb as [|b bs Hb Hbs IH]; simpl.
  - apply hexpairs_stops; assumption.
  - unfold is_byte in Hb. rewrite !hexval_hexdig by lia. rewrite IH.
    replace (16 * (b / 16) + b mod 16) with b by lia. reflexivity.
Qed.

Lemma hexs_app a b : hexs (a ++ b) = hexs a ++ hexs b.
Proof. apply flat_map_app. Qed.

Lemma hexs_length a : length (hexs a) = (2 * length a)%nat.
Proof. induction a; simpl; lia. Qed.

Lemma sum_app a b : sum (a ++ b) = sum a + sum b.
Proof. induction a; simpl; lia. Qed.

Lemma ih_bytes_spec n chk buf : bytes buf -> is_byte chk ->
  ih_bytes n chk buf =
  (hexs (firstn n buf), zlen (firstn n buf), (chk + sum (firstn n buf)) mod 256, skipn n buf).
Proof.
  revert chk buf; induction n as [|n IH]; intros chk buf Hb Hc; simpl.
  - unfold is_byte in Hc. rewrite Z.add_0_r, Z.mod_small by lia. reflexivity.
  - destruct buf as [|b buf]; simpl.
    + unfold is_byte in Hc. rewrite Z.add_0_r, Z.mod_small by lia. reflexivity.
    + inversion Hb as [|? ? Hb1 Hb2]; subst.
      rewrite IH by (auto using u8_byte).
      rewrite shiftr_4, land_15. unfold u8, zlen. simpl length.
      rewrite Zplus_mod_idemp_l, Z.add_assoc.
      repeat f_equal. lia.
Qed.

Definition rec_bytes (addr ty : Z) (data : list Z) (cs : Z) : list Z :=
  zlen data :: addr / 256 :: addr mod 256 :: ty :: data ++ [cs].

Lemma ih_record_spec addr buf : bytes buf -> 0 <= addr < 65536 ->
  exists cs, is_byte cs /\
    ih_record addr buf =
      (58 :: hexs (rec_bytes addr 0 (firstn 32 buf) cs) ++ crlf, skipn 32 buf) /\
    sum (rec_bytes addr 0 (firstn 32 buf) cs) mod 256 = 0.
Proof.
  intros Hb Ha. unfold ih_record.
  rewrite ih_bytes_spec by (auto using u8_byte).
  set (d := firstn 32 buf).
  assert (Hd : (length d <= 32)%nat) by (unfold d; rewrite firstn_length; lia).
  rewrite shiftr_8, land_255.
  eexists. split; [apply u8_byte|]. split.
  - rewrite !hexw_2, hexw_4 by (try apply u8_byte; unfold zlen; lia).
    zsnorm. f_equal. cbn [app]. f_equal.
    unfold rec_bytes.
    change (zlen d :: addr / 256 :: addr mod 256 :: 0 :: d ++ ?x)
      with ([zlen d; addr / 256; addr mod 256; 0] ++ d ++ x).
    rewrite !hexs_app. cbn [hexs flat_map app].
    rewrite Zmod_0_l, Zdiv_0_l. change (hexdig 0) with 48.
    rewrite <- !app_assoc. reflexivity.
  - unfold rec_bytes. cbn [sum fold_right]. fold (sum (d ++ [u8 (Z.lnot ((u8 (addr / 256 + addr mod 256) + sum d) mod 256 + zlen d) + 1)])).
    rewrite sum_app. cbn [sum fold_right]. fold (sum d).
    rewrite lnot_alt. unfold u8.
    generalize (sum d) as S; generalize (zlen d) as L; intros.
    lia.
Qed.

Definition Reads check seg l r :=
  forall f, (length l < f)%nat -> read_hex f check seg l = r.

Lemma removelast_snoc {A} (l : list A) x : removelast (l ++ [x]) = l.
Proof. apply removelast_last. Qed.

Lemma record_of_ok check addr ty data cs :
  0 <= addr < 65536 -> (check = true -> sum (rec_bytes addr ty data cs) mod 256 = 0) ->
  record_of check (rec_bytes addr ty data cs) =
  Some {| hr_addr := addr; hr_type := ty; hr_data := data |}.
Proof.
  intros Ha Hc. unfold record_of, rec_bytes.
  rewrite removelast_snoc, app_length. cbn [length].
  replace (Z.of_nat (length data + 1) =? zlen data + 1) with true by (unfold zlen; lia).
  fold (rec_bytes addr ty data cs).
  replace (negb check || (sum (rec_bytes addr ty data cs) mod 256 =? 0)) with true
    by (destruct check; [rewrite Hc by reflexivity|]; reflexivity).
  cbn [andb]. do 2 f_equal. lia.
Qed.

Lemma rec_bytes_bytes addr ty data cs :
  0 <= addr < 65536 -> is_byte ty -> bytes data -> is_byte cs -> (length data < 256)%nat ->
  bytes (rec_bytes addr ty data cs).
Proof.
  intros. unfold rec_bytes, bytes.
  repeat constructor; unfold is_byte, zlen in *; try lia.
  apply Forall_app; split; [assumption|]. repeat constructor; unfold is_byte; lia.
Qed.

Lemma Reads_data check seg addr buf tail r :
  bytes buf -> 0 <= addr < 65536 -> Reads check seg tail r ->
  Reads check seg (fst (ih_record addr buf) ++ tail)
    (option_map (app (cells seg addr (firstn 32 buf))) r).
Proof.
  intros Hb Ha Hr f Hf.
  destruct (ih_record_spec addr buf Hb Ha) as (cs & Hcs & E & Hs).
  rewrite E in *. cbn [fst app] in *.
  destruct f as [|f]; [lia|].
  cbn [read_hex]. change (58 =? 58) with true. cbv iota.
  rewrite <- app_assoc.
  assert (Hd : (length (firstn 32 buf) <= 32)%nat) by (rewrite firstn_length; lia).
  rewrite hexpairs_hexs;
    [|apply rec_bytes_bytes; auto using bytes_firstn; [unfold is_byte; lia|lia]
     |right; unfold crlf; eexists; reflexivity].
  rewrite record_of_ok by auto.
  cbn [hr_type hr_addr hr_data crlf app].
  change (0 =? 1) with false; change (0 =? 0) with true. cbv iota.
  rewrite Hr; [destruct r; reflexivity|].
  cbn [length] in Hf. rewrite !app_length in Hf. lia.
Qed.

Lemma cells_app seg addr a b :
  cells seg addr (a ++ b) = cells seg addr a ++ cells seg (addr + zlen a) b.
Proof.
  revert addr; induction a as [|x a IH]; intros addr; simpl.
  - unfold zlen; simpl. rewrite Z.add_0_r. reflexivity.
  - rewrite IH. unfold zlen. simpl length. do 3 f_equal. lia.
Qed.

Lemma Reads_records check seg n addr buf tail r :
  bytes buf -> 0 <= addr -> addr + 32 * Z.of_nat n <= 65536 -> Reads check seg tail r ->
  Reads check seg (fst (ih_records n addr buf) ++ tail)
    (option_map (app (cells seg addr (firstn (32 * n) buf))) r)
  /\ snd (ih_records n addr buf) = skipn (32 * n) buf.
Proof.
  revert addr buf; induction n as [|n IH]; intros addr buf Hb Ha Ha2 Hr.
  - simpl. split; [|reflexivity]. destruct r; assumption.
  - destruct buf as [|b buf].
    + rewrite firstn_nil, skipn_nil. simpl. split; [|reflexivity]. destruct r; assumption.
    + cbn [ih_records].
      pose proof (Reads_data check seg addr (b :: buf)) as HD.
      destruct (ih_record_spec addr (b :: buf) Hb ltac:(lia)) as (cs & _ & E & _).
      destruct (ih_record addr (b :: buf)) as [t rest]. apply (f_equal snd) in E. cbn [snd] in E. rename E into Erest.
      specialize (IH (addr + 32) rest).
      destruct (ih_records n (addr + 32) rest) as [ts rest'].
      cbn [fst snd] in *. subst rest.
      destruct IH as [IH1 IH2]; [apply bytes_skipn; auto|lia|lia|assumption|].
      assert (Hsk : skipn (32 * S n) (b :: buf) = skipn (32 * n) (skipn 32 (b :: buf))).
      { replace (32 * S n)%nat with (32 + 32 * n)%nat by lia. apply skipn_plus. }
      split; [|congruence].
      rewrite <- app_assoc.
      assert (Hfn : firstn (32 * S n) (b :: buf) =
                firstn 32 (b :: buf) ++ firstn (32 * n) (skipn 32 (b :: buf))).
      { replace (32 * S n)%nat with (32 + 32 * n)%nat by lia. apply firstn_plus. }
      rewrite Hfn, cells_app.
      specialize (HD _ _ Hb ltac:(lia) IH1).
      destruct r as [cs'|]; [|exact HD].
      cbn [option_map] in *.
      destruct (Nat.le_gt_cases 32 (length (b :: buf))) as [Hl|Hl].
      * replace (addr + zlen (firstn 32 (b :: buf))) with (addr + 32)
          by (unfold zlen; rewrite firstn_length; lia).
        rewrite <- app_assoc. exact HD.
      * rewrite (skipn_all2 (n := 32)) in * by lia. rewrite firstn_nil in *.
        cbn [cells app] in *. rewrite app_nil_r. exact HD.
Qed.

Lemma image_from_cells k buf : 0 <= k -> forall j, 0 <= j -> j + zlen buf <= 16384 ->
  image_from (16384 * k + j) buf = cells k (16384 + j) buf.
Proof.
  intros Hk. induction buf as [|b buf IH]; intros j Hj Hl; simpl; [reflexivity|].
  unfold zlen in *. simpl length in Hl.
  replace ((16384 * k + j) / 16384) with k by lia.
  replace ((16384 * k + j) mod 16384) with j by lia.
  f_equal. replace (16384 * k + j + 1) with (16384 * k + (j + 1)) by lia.
  rewrite IH by lia. f_equal. lia.
Qed.

Lemma image_from_app i a b : image_from i (a ++ b) = image_from i a ++ image_from (i + zlen a) b.
Proof.
  revert i; induction a as [|x a IH]; intros i; simpl.
  - unfold zlen; simpl. rewrite Z.add_0_r. reflexivity.
  - rewrite IH. unfold zlen. simpl length. do 3 f_equal. lia.
Qed.

Lemma image_page k buf : 0 <= k ->
  image_from (16384 * k) buf =
  cells k 16384 (firstn (32 * 512) buf) ++ image_from (16384 * (k + 1)) (skipn (32 * 512) buf).
Proof.
  intros Hk.
  assert (HN : Z.of_nat (32 * 512) = 16384) by lia.
  rewrite <- (firstn_skipn (32 * 512) buf) at 1. rewrite image_from_app.
  set (N := (32 * 512)%nat) in *. clearbody N.
  pose proof (firstn_length N buf) as HL.
  f_equal.
  - replace (16384 * k) with (16384 * k + 0) by lia.
    rewrite image_from_cells; [reflexivity|lia|lia|unfold zlen; lia].
  - destruct (Nat.le_gt_cases N (length buf)) as [Hl|Hl].
    + f_equal. unfold zlen. lia.
    + rewrite (skipn_all2 (n := N)) by lia. reflexivity.
Qed.

(** The text of a type-02 record as written by the page loop. *)
Lemma page_record_text page : 0 <= page < 65536 ->
  zs ":02000002" ++ hexw 4 page ++ hexw 2 (u8 (Z.lnot (4 + page) + 1)) ++ crlf =
  58 :: hexs (rec_bytes 0 2 [page / 256; page mod 256] ((- (4 + page)) mod 256)) ++ crlf.
Proof.
  intros H. rewrite hexw_4, hexw_2 by (try apply u8_byte; lia).
  zsnorm. rewrite lnot_alt. unfold u8.
  replace (- (4 + page) - 1 + 1) with (- (4 + page)) by lia. reflexivity.
Qed.

Lemma Reads_page check seg page tail r :
  0 <= page < 65536 -> Reads check page tail r ->
  Reads check seg
    ((zs ":02000002" ++ hexw 4 page ++ hexw 2 (u8 (Z.lnot (4 + page) + 1)) ++ crlf) ++ tail)
    (if check && (256 <=? page) then None else r).
Proof.
  intros Hp Hr f Hf. rewrite page_record_text in * by assumption.
  destruct f as [|f]; [lia|].
  cbn [app] in *. cbn [length] in Hf. rewrite !app_length in Hf.
  rewrite <- app_assoc. cbn [read_hex].
  change (58 =? 58) with true. cbv iota.
  rewrite hexpairs_hexs;
    [|apply rec_bytes_bytes; unfold is_byte; try (simpl; lia);
      repeat constructor; unfold is_byte; lia
     |right; unfold crlf; eexists; reflexivity].
  destruct (check && (256 <=? page)) eqn:E.
  - apply andb_true_iff in E as [-> E]. apply Z.leb_le in E.
    replace (record_of _ _) with (@None hexrec); [reflexivity|].
    unfold record_of, rec_bytes, zlen. cbn [length app negb orb removelast sum fold_right].
    symmetry. match goal with |- context [(?a mod 256 =? 0)] => replace (a mod 256 =? 0) with false end.
    + rewrite andb_false_r. reflexivity.
    + simpl (Z.of_nat 2). simpl (0 / 256); simpl (0 mod 256). lia.
  - rewrite record_of_ok; [|lia|].
    + cbn [hr_type hr_addr hr_data crlf app].
      change (2 =? 1) with false; change (2 =? 0) with false; change (2 =? 2) with true.
      cbv iota. replace (256 * (page / 256) + page mod 256) with page by lia.
      apply Hr. lia.
    + intros ->. simpl in E. unfold rec_bytes, zlen. cbn [length app sum fold_right].
      simpl (Z.of_nat 2). simpl (0 / 256); simpl (0 mod 256). lia.
Qed.

Lemma ih_records_nonempty_consumes (buf : list Z) : buf <> [] ->
  (length (skipn (32 * 512) buf) < length buf)%nat.
Proof.
  intros H. rewrite skipn_length.
  destruct buf; [congruence|]. cbn [length].
  assert (1 <= 32 * 512)%nat by lia. lia.
Qed.

Lemma Reads_pages check fuel page seg buf tail r :
  bytes buf -> (length buf <= fuel)%nat -> 0 <= page ->
  16384 * page + zlen buf <= 16384 * 65536 ->
  (forall seg', Reads check seg' tail r) ->
  Reads check seg (ih_pages fuel page 16384 buf ++ tail)
    (if check && (256 * 16384 <? 16384 * page + zlen buf) && negb (zlen buf =? 0) then None
     else option_map (app (image_from (16384 * page) buf)) r).
Proof.
  revert page seg buf; induction fuel as [|fuel IH]; intros page seg buf Hb Hf Hp Hs Ht.
  - destruct buf as [|b buf]; [|simpl in Hf; lia].
    change (zlen []) with 0. change (0 =? 0) with true. rewrite andb_false_r.
    simpl. destruct r; apply Ht.
  - destruct buf as [|b buf0] eqn:Ebuf.
    + change (zlen []) with 0. change (0 =? 0) with true. rewrite andb_false_r.
      simpl. destruct r; apply Ht.
    + rewrite <- Ebuf in *.
      assert (Hne : buf <> []) by (rewrite Ebuf; discriminate).
      assert (Hz : 0 < zlen buf) by (rewrite Ebuf; unfold zlen; simpl length; lia).
      assert (Ep : ih_pages (S fuel) page 16384 buf =
        let '(t, rest) := ih_records 512 16384 buf in
        zs ":02000002" ++ hexw 4 page ++ hexw 2 (u8 (Z.lnot (4 + page) + 1)) ++ crlf ++
        t ++ ih_pages fuel (page + 1) 16384 rest) by (rewrite Ebuf; reflexivity).
      rewrite Ep. clear Ep.
      pose proof (Reads_records check page 512 16384 buf) as HR.
      destruct (ih_records 512 16384 buf) as [t rest]. cbn [fst snd] in HR.
      assert (HP0 : 0 <= page < 65536) by (unfold zlen in *; lia).
      replace ((zs ":02000002" ++ hexw 4 page ++ hexw 2 (u8 (Z.lnot (4 + page) + 1)) ++ crlf ++
        t ++ ih_pages fuel (page + 1) 16384 rest) ++ tail)
      with ((zs ":02000002" ++ hexw 4 page ++ hexw 2 (u8 (Z.lnot (4 + page) + 1)) ++ crlf) ++
        (t ++ (ih_pages fuel (page + 1) 16384 rest ++ tail)))
        by (rewrite <- !app_assoc; reflexivity).
      assert (Erest : rest = skipn (32 * 512) buf).
      { refine (proj2 (HR [] None Hb ltac:(lia) ltac:(lia) _)).
        intros f Hf'. destruct f; [lia|]. reflexivity. }
      pose proof (ih_records_nonempty_consumes buf Hne) as Hcons.
      rewrite <- Erest in Hcons.
      pose proof (skipn_length (32 * 512) buf) as Hskl. rewrite <- Erest in Hskl.
      assert (HN : Z.of_nat (32 * 512) = 16384) by lia.
      assert (Hsmall : (rest = [] /\ zlen buf < 16384) \/ zlen rest = zlen buf - 16384).
      { destruct (Nat.le_gt_cases (32 * 512) (length buf)).
        - right. unfold zlen. lia.
        - left. split; [rewrite Erest; apply skipn_all2; lia|unfold zlen; lia]. }
      assert (Hrest : 16384 * (page + 1) + zlen rest <= 16384 * 65536 \/ rest = []).
      { destruct Hsmall as [[H _]|H]; [right|left]; [assumption|lia]. }
      assert (IHr : Reads check page (ih_pages fuel (page + 1) 16384 rest ++ tail)
        (if check && (256 * 16384 <? 16384 * (page + 1) + zlen rest) && negb (zlen rest =? 0)
         then None else option_map (app (image_from (16384 * (page + 1)) rest)) r)).
      { destruct Hrest as [Hrest|Hrest].
        - apply IH; auto; [rewrite Erest; apply bytes_skipn; assumption|lia|lia].
        - rewrite Hrest. change (zlen []) with 0. change (0 =? 0) with true.
          rewrite andb_false_r.
          destruct fuel; simpl; destruct r; apply Ht. }
      destruct (HR _ _ Hb ltac:(lia) ltac:(lia) IHr) as [HR1 _].
      pose proof (Reads_page check seg page _ _ HP0 HR1) as HP.
      rewrite image_page by lia. rewrite <- Erest.
      replace (zlen buf =? 0) with false by lia. cbn [negb]. rewrite andb_true_r.
      clear - HP Hsmall Hz.
      match goal with |- Reads _ _ ?T _ => set (TT := T) in *; clearbody TT end.
      set (big := 256 * 16384 <? 16384 * page + zlen buf) in *.
      set (bigr := 256 * 16384 <? 16384 * (page + 1) + zlen rest) in *.
      destruct check; cbn [andb] in *; [|destruct r; cbn [option_map] in *;
        [rewrite <- app_assoc|]; exact HP].
      destruct (256 <=? page) eqn:E1.
      * replace big with true by (unfold big; lia). exact HP.
      * destruct Hsmall as [[-> Hsm]|Hsm].
        -- change (zlen []) with 0 in *. change (0 =? 0) with true in HP.
           rewrite andb_false_r in HP.
           destruct big eqn:Eb.
           ++ exfalso. unfold big in Eb. lia.
           ++ destruct r; cbn [option_map] in *; [rewrite <- app_assoc|]; exact HP.
        -- replace bigr with big in HP by (unfold big, bigr; f_equal; lia).
           destruct big eqn:Eb.
           ++ destruct (zlen rest =? 0) eqn:Ez.
              ** exfalso. unfold big in Eb. lia.
              ** exact HP.
           ++ destruct r; cbn [option_map] in *; [rewrite <- app_assoc|]; exact HP.
Qed.

Lemma decode_intelhex check buf :
  bytes buf -> zlen buf <= 16384 * 65536 ->
  decode_hex check (intelhex buf) =
  if check && (256 * 16384 <? zlen buf) then None else Some (image buf).
Proof.
  intros Hb Hl. unfold decode_hex, intelhex, intelhex_at, image.
  assert (Ht : forall seg', Reads check seg' (zs ":00000001FF") (Some [])).
  { intros seg' f Hf. destruct f as [|f]; [lia|]. destruct check; reflexivity. }
  pose proof (Reads_pages check (length buf) 0 0 buf _ _ Hb (le_n _) ltac:(lia) ltac:(lia) Ht) as H.
  rewrite H by lia.
  replace (16384 * 0 + zlen buf) with (zlen buf) by lia.
  destruct (zlen buf =? 0) eqn:E.
  - replace (256 * 16384 <? zlen buf) with false by lia.
    rewrite !andb_false_r. cbn [andb option_map]. rewrite app_nil_r. reflexivity.
  - cbn [negb]. rewrite andb_true_r.
    destruct (check && _); [reflexivity|]. cbn [option_map]. rewrite app_nil_r. reflexivity.
Qed.

Lemma ihex_checked_ok buf :
  bytes buf -> zlen buf <= 256 * 16384 -> decode_hex true (intelhex buf) = Some (image buf).
Proof.
  intros Hb Hl. rewrite decode_intelhex by (auto; lia).
  replace (256 * 16384 <? zlen buf) with false by lia. reflexivity.
Qed.

Lemma ihex_checked_bad buf :
  bytes buf -> 256 * 16384 < zlen buf <= 65536 * 16384 -> decode_hex true (intelhex buf) = None.
Proof.
  intros Hb Hl. rewrite decode_intelhex by (auto; lia).
  replace (256 * 16384 <? zlen buf) with true by lia. reflexivity.
Qed.
