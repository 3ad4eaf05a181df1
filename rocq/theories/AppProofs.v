(** Lemmas on application files. *)
From Verif Require Import Base BaseProofs State MonadProofs UtilsModel ErrorsModel PassTwoModel IhexModel IhexSpec IhexProofs ExportModel
  StorageSpec ExportSpec ExportProofs.

(** * Header fields *)
Lemma fields_app a b : fields_bytes (a ++ b) = fields_bytes a ++ fields_bytes b.
Proof. apply flat_map_app. Qed.
Lemma nth_pre {A} (d : A) pre l i : nth (length pre + i) (pre ++ l) d = nth i l d.
Proof. rewrite app_nth2 by lia. f_equal. lia. Qed.
Lemma nth_pre0 {A} (d : A) pre l : nth (length pre) (pre ++ l) d = nth 0 l d.
Proof. rewrite <- (nth_pre d pre l 0). f_equal. lia. Qed.
Lemma nth_pre1 {A} (d : A) pre l : nth (S (length pre)) (pre ++ l) d = nth 1 l d.
Proof. rewrite <- (nth_pre d pre l 1). f_equal. lia. Qed.

Lemma find_first (p : field -> bool) fs f : find p fs = Some f ->
  exists a b, fs = a ++ f :: b /\ p f = true /\ Forall (fun g => p g = false) a.
Proof.
  induction fs as [|g fs IH]; simpl; [discriminate|]. destruct (p g) eqn:E.
  - intros H; injection H as <-. exists [], fs. auto.
  - intros H. destruct (IH H) as (a & b & -> & Hp & Ha). exists (g :: a), b. auto.
Qed.
Lemma find_skip (p : field -> bool) a l : Forall (fun g => p g = false) a -> find p (a ++ l) = find p l.
Proof. induction 1 as [|g a Hg _ IH]; simpl; [reflexivity|]. now rewrite Hg. Qed.
Lemma update_skip (p : field -> bool) v a l : Forall (fun g => p g = false) a -> update_first p v (a ++ l) = a ++ update_first p v l.
Proof. induction 1 as [|g a Hg _ IH]; simpl; [reflexivity|]. now rewrite Hg, IH. Qed.

Lemma step_pos pre f l rest : field_ok f ->
  pre ++ fields_bytes (f :: l) ++ rest = (pre ++ field_bytes f) ++ fields_bytes l ++ rest /\
  (S (S (length pre)) + Z.to_nat (Z.land (fl_id f) 15))%nat = length (pre ++ field_bytes f).
Proof.
  intros (Hi & Hc). split; [cbn [fields_bytes flat_map]; now rewrite <- !app_assoc|].
  rewrite land_15, <- Hc, Nat2Z.id, app_length. simpl. lia.
Qed.

Lemma findfield_skip byte a : forall fuel pre l rest, Forall field_ok a -> Forall (fun g => (fl_id g =? byte) = false) a ->
  (length a <= fuel)%nat ->
  findfield fuel byte (pre ++ fields_bytes (a ++ l) ++ rest) (length pre) =
  findfield (fuel - length a) byte ((pre ++ fields_bytes a) ++ fields_bytes l ++ rest) (length (pre ++ fields_bytes a)).
Proof.
  induction a as [|f a IH]; intros fuel pre l rest Ho Hn Hl; simpl app.
  - simpl. now rewrite app_nil_r, Nat.sub_0_r.
  - destruct fuel as [|fuel]; [simpl in Hl; lia|]. inversion Ho; inversion Hn; subst.
    destruct (step_pos pre f (a ++ l) rest ltac:(assumption)) as (E1 & E2).
    cbn [findfield]. rewrite nth_pre0, nth_pre1. cbn [fields_bytes flat_map field_bytes app nth].
    match goal with H : (fl_id f =? byte) = false |- _ => rewrite H end. rewrite E2, Z.eqb_refl.
    change (findfield fuel byte (pre ++ fields_bytes (f :: a ++ l) ++ rest) (length (pre ++ field_bytes f)) =
      findfield (S fuel - length (f :: a)) byte ((pre ++ fields_bytes (f :: a)) ++ fields_bytes l ++ rest) (length (pre ++ fields_bytes (f :: a)))).
    rewrite E1, IH by (auto; simpl in Hl; lia). cbn [fields_bytes flat_map length Nat.sub]. now rewrite !app_assoc.
Qed.
Lemma findfield_at fuel byte pre f l rest : fl_id f = byte -> (0 < fuel)%nat ->
  findfield fuel byte (pre ++ fields_bytes (f :: l) ++ rest) (length pre) = S (S (length pre)).
Proof.
  intros E Hf. destruct fuel; [lia|]. cbn [findfield]. rewrite nth_pre0, nth_pre1. cbn [fields_bytes flat_map field_bytes app nth].
  now rewrite E, !Z.eqb_refl.
Qed.
Lemma findfield_end fuel byte pre rest : nth 0 rest 0 <> 128 -> findfield fuel byte (pre ++ rest) (length pre) = O.
Proof. intros H. destruct fuel; [reflexivity|]. cbn [findfield]. rewrite nth_pre0. now replace (nth 0 rest 0 =? 128) with false by lia. Qed.

Lemma flex_skip byte a : forall fuel pre l rest, Forall field_ok a -> Forall (fun g => (Z.land (fl_id g) 240 =? Z.land byte 240) = false) a ->
  (length a <= fuel)%nat ->
  findfield_flex fuel byte (pre ++ fields_bytes (a ++ l) ++ rest) (length pre) =
  findfield_flex (fuel - length a) byte ((pre ++ fields_bytes a) ++ fields_bytes l ++ rest) (length (pre ++ fields_bytes a)).
Proof.
  induction a as [|f a IH]; intros fuel pre l rest Ho Hn Hl; simpl app.
  - simpl. now rewrite app_nil_r, Nat.sub_0_r.
  - destruct fuel as [|fuel]; [simpl in Hl; lia|]. inversion Ho; inversion Hn; subst.
    destruct (step_pos pre f (a ++ l) rest ltac:(assumption)) as (E1 & E2).
    cbn [findfield_flex]. cbv zeta. rewrite nth_pre0, nth_pre1. cbn [fields_bytes flat_map field_bytes app nth].
    match goal with H : (Z.land (fl_id f) 240 =? _) = false |- _ => rewrite H end. rewrite E2, Z.eqb_refl.
    change (findfield_flex fuel byte (pre ++ fields_bytes (f :: a ++ l) ++ rest) (length (pre ++ field_bytes f)) =
      findfield_flex (S fuel - length (f :: a)) byte ((pre ++ fields_bytes (f :: a)) ++ fields_bytes l ++ rest) (length (pre ++ fields_bytes (f :: a)))).
    rewrite E1, IH by (auto; simpl in Hl; lia). cbn [fields_bytes flat_map length Nat.sub]. now rewrite !app_assoc.
Qed.

Lemma land_240 b : 0 <= b < 256 -> (Z.land b 240 =? Z.land 64 240) = (b / 16 =? 4).
Proof.
  assert (F : forallb (fun b => Bool.eqb (Z.land b 240 =? Z.land 64 240) (b / 16 =? 4)) (map Z.of_nat (seq 0 256)) = true)
    by (vm_compute; reflexivity).
  intros H. rewrite forallb_forall in F. apply Bool.eqb_prop, F, in_map_iff. exists (Z.to_nat b).
  split; [lia|apply in_seq; lia].
Qed.

(** The positions found, in terms of the list of fields. *)
Lemma find_code byte fs pre rest fuel : Forall field_ok fs -> nth 0 rest 0 <> 128 -> (length fs < fuel)%nat ->
  match find (fun f => fl_id f =? byte) fs with
  | None => findfield fuel byte (pre ++ fields_bytes fs ++ rest) (length pre) = O
  | Some f => exists a b, fs = a ++ f :: b /\ Forall (fun g => (fl_id g =? byte) = false) a /\ fl_id f = byte /\
     findfield fuel byte (pre ++ fields_bytes fs ++ rest) (length pre) = S (S (length (pre ++ fields_bytes a)))
  end.
Proof.
  intros Ho Hr Hl. destruct (find _ fs) as [f|] eqn:E.
  - destruct (find_first _ _ _ E) as (a & b & -> & Hp & Ha). apply Z.eqb_eq in Hp. exists a, b.
    split; [reflexivity|split; [exact Ha|split; [exact Hp|]]].
    apply Forall_app in Ho. rewrite app_length in Hl. simpl in Hl.
    rewrite findfield_skip by (tauto || lia). apply findfield_at; [exact Hp|lia].
  - assert (Ha : Forall (fun g => (fl_id g =? byte) = false) fs).
    { apply Forall_forall. intros g Hg. exact (find_none _ _ E g Hg). }
    rewrite <- (app_nil_r fs) at 1. rewrite findfield_skip by (auto; lia). cbn [fields_bytes flat_map app].
    now apply findfield_end.
Qed.
Lemma find_name fs pre rest fuel : Forall field_ok fs -> nth 0 rest 0 <> 128 -> (length fs < fuel)%nat ->
  match find is_name fs with
  | None => findfield_flex fuel 64 (pre ++ fields_bytes fs ++ rest) (length pre) = None
  | Some f => exists a b, fs = a ++ f :: b /\
     findfield_flex fuel 64 (pre ++ fields_bytes fs ++ rest) (length pre) =
       Some (S (S (length (pre ++ fields_bytes a))), length (fl_content f))
  end.
Proof.
  intros Ho Hr Hl.
  assert (K : forall a, Forall field_ok a -> Forall (fun g => is_name g = false) a ->
     Forall (fun g => (Z.land (fl_id g) 240 =? Z.land 64 240) = false) a).
  { intros a H1 H2. apply Forall_forall. intros g Hg. rewrite Forall_forall in H1, H2. rewrite land_240 by (apply H1; exact Hg).
    apply H2; exact Hg. }
  destruct (find _ fs) as [f|] eqn:E.
  - destruct (find_first _ _ _ E) as (a & b & -> & Hp & Ha). exists a, b. split; [reflexivity|].
    apply Forall_app in Ho. destruct Ho as (Ho1 & Ho2). inversion Ho2 as [|? ? (Hi & Hc) Ho3]; subst.
    rewrite app_length in Hl. simpl in Hl.
    rewrite flex_skip by (auto; lia). destruct (fuel - length a)%nat eqn:Ef; [lia|].
    cbn [findfield_flex]. cbv zeta. rewrite nth_pre0, nth_pre1. cbn [fields_bytes flat_map field_bytes app nth].
    rewrite Z.eqb_refl, land_240, land_15, <- Hc, Nat2Z.id by exact Hi. unfold is_name in Hp. now rewrite Hp.
  - assert (Ha : Forall (fun g => is_name g = false) fs).
    { apply Forall_forall. intros g Hg. exact (find_none _ _ E g Hg). }
    rewrite <- (app_nil_r fs) at 1. rewrite flex_skip by (auto; lia). cbn [fields_bytes flat_map app].
    destruct (fuel - length fs)%nat; [reflexivity|]. cbn [findfield_flex]. rewrite nth_pre0.
    now replace (nth 0 rest 0 =? 128) with false by lia.
Qed.

(** * The fields filled in *)
Lemma put_at_pre pre v x l : put_at (length pre) v (pre ++ x :: l) = pre ++ v :: l.
Proof. induction pre as [|y pre IH]; simpl; [destruct l; reflexivity|]. now rewrite IH. Qed.

Lemma be4_be32 z : be4 z = be32 z.
Proof. unfold be4, be32, u8. now rewrite !Z.shiftr_div_pow2 by lia. Qed.
Lemma le4_le32 z : le4 z = le32 z.
Proof. unfold le4, le32, be32, u8. now rewrite !Z.shiftr_div_pow2 by lia. Qed.

Lemma pages_ceil size : 0 <= size -> Z.shiftr size 14 + (if Z.land size 16383 =? 0 then 0 else 1) = ceil_div size 16384.
Proof.
  intros H. rewrite Z.shiftr_div_pow2 by lia. change 16383 with (Z.ones 14). rewrite Z.land_ones by lia. unfold ceil_div.
  change (2 ^ 14) with 16384. destruct (size mod 16384 =? 0) eqn:E; lia.
Qed.

Lemma no_room_ok size : 0 < size ->
  ((negb ((size + 96) mod 16384 =? 0)) && ((size + 96) mod 16384 <? 97) && (16384 <? size)) = no_room size.
Proof. intros H. unfold no_room. lia. Qed.

Lemma u32_small z : 0 <= z < 4294967296 -> u32 z = z.
Proof. intros. unfold u32. lia. Qed.

Definition refusal_code (r : refusal) : Z :=
  match r with
  | NoRoom => SPASM_ERR_SIGNER_ROOM_FOR_SIG
  | NoLength => SPASM_ERR_SIGNER_MISSING_LENGTH
  | BadType => SPASM_ERR_SIGNER_PRGM_TYPE
  | NoPages => SPASM_ERR_SIGNER_MISSING_PAGES
  | NoName => SPASM_ERR_SIGNER_MISSING_NAME
  end.

Lemma update_ok v fs : Forall field_ok fs -> Forall field_ok (update_first is_pages [v] fs).
Proof.
  induction 1 as [|f fs (Hi & Hc) Hfs IH]; simpl; [constructor|]. destruct (is_pages f) eqn:E.
  - constructor; [|assumption]. unfold is_pages in E. apply Z.eqb_eq in E. split; simpl; [lia|]. rewrite E. reflexivity.
  - constructor; [split; assumption|exact IH].
Qed.
Lemma update_name v fs : find is_name (update_first is_pages [v] fs) = find is_name fs.
Proof.
  induction fs as [|f fs IH]; simpl; [reflexivity|]. destruct (is_pages f) eqn:E; simpl.
  - replace (is_name f) with false; [|unfold is_name, is_pages in *; apply Z.eqb_eq in E; rewrite E; reflexivity].
    unfold is_name at 1. simpl. apply Z.eqb_eq in E. rewrite E. reflexivity.
  - now rewrite IH.
Qed.
Lemma map_nth_seq (pre l rest : list Z) n : (n <= length l)%nat ->
  map (fun i => nth (length pre + i) (pre ++ l ++ rest) 0) (seq 0 n) = firstn n l.
Proof.
  intros H. erewrite map_ext; [|intros i; rewrite nth_pre; reflexivity].
  revert n H. induction l as [|x l IH]; intros n H; simpl in H; [replace n with O by lia; reflexivity|].
  destruct n as [|n]; [reflexivity|]. simpl. f_equal. rewrite <- seq_shift, map_map. simpl. apply IH. lia.
Qed.
Lemma fields_cons f l : fields_bytes (f :: l) = 128 :: fl_id f :: fl_content f ++ fields_bytes l.
Proof. reflexivity. Qed.
Lemma nth_content pre a f b rest i : (i < length (fl_content f))%nat ->
  nth (S (S (length (pre ++ fields_bytes a))) + i) (pre ++ fields_bytes (a ++ f :: b) ++ rest) 0 = nth i (fl_content f) 0.
Proof.
  intros H. rewrite fields_app, fields_cons, <- !app_assoc, (app_assoc pre). cbn [app].
  replace (S (S (length (pre ++ fields_bytes a))) + i)%nat with (length (pre ++ fields_bytes a) + (2 + i))%nat by lia.
  rewrite nth_pre. cbn [Nat.add nth]. rewrite <- app_assoc. now rewrite app_nth1.
Qed.

Lemma fields_count fs : (2 * length fs <= length (fields_bytes fs))%nat.
Proof. induction fs as [|f fs IH]; [simpl; lia|]. rewrite fields_cons. cbn [length]. rewrite app_length. lia. Qed.

Lemma app_fields_spec l4 fs code : let data := app_bytes l4 fs code in let size := zlen data in
  length l4 = 4%nat -> Forall field_ok fs -> nth 0 code 0 <> 128 -> size < 4294967296 ->
  app_fields data = match app_spec fs code size with inl r => inl (refusal_code r) | inr x => inr x end.
Proof.
  intros data size H4 Ho Hc Hs.
  assert (Hpos : 0 < size) by (unfold size, data, app_bytes, zlen; cbn [app length]; lia).
  assert (H6 : 6 <= size) by (unfold size, data, app_bytes, zlen; rewrite !app_length, H4; cbn [length]; lia).
  unfold app_fields. cbv zeta. fold size. rewrite no_room_ok by exact Hpos. unfold app_spec.
  destruct (no_room size); [reflexivity|].
  change ((nth 0 data 0 =? 128) && (nth 1 data 0 =? 15)) with true. cbn [negb].
  set (R := code ++ repeat 0 256).
  assert (HR : nth 0 R 0 <> 128) by (unfold R; destruct code; [discriminate|exact Hc]).
  rewrite u32_small by lia. rewrite be4_be32.
  assert (Eb : set_at 2 (be32 (size - 6)) (data ++ repeat 0 256) = ([128; 15] ++ be32 (size - 6)) ++ fields_bytes fs ++ R).
  { unfold data, app_bytes, R. do 4 (destruct l4 as [|? l4]; [discriminate|]). destruct l4; [|discriminate].
    unfold be32. rewrite <- !app_assoc. cbn [set_at app put_at]. reflexivity. }
  rewrite Eb. set (pre := [128; 15] ++ be32 (size - 6)).
  change 6%nat with (length pre).
  set (fuel := S (length (pre ++ fields_bytes fs ++ R))).
  assert (Hf : (length fs < fuel)%nat).
  { unfold fuel. rewrite !app_length. pose proof (fields_count fs). lia. }
  pose proof (find_code 18 fs pre R fuel Ho HR Hf) as F1. fold is_type in F1.
  change (fun f : field => fl_id f =? 18) with is_type in F1.
  destruct (find is_type fs) as [t|] eqn:Et; [|rewrite F1; reflexivity].
  destruct F1 as (a & b & Efs & Ha & Hid & ->).
  assert (Hlen : length (fl_content t) = 2%nat).
  { rewrite Efs in Ho. apply Forall_app in Ho. destruct Ho as (_ & Ho). inversion Ho as [|? ? (Hi & Hk) _]; subst. rewrite Hid in Hk.
    change (18 mod 16) with 2 in Hk. lia. }
  rewrite Efs at 1 2.
  replace (S (S (S (length (pre ++ fields_bytes a))))) with (S (S (length (pre ++ fields_bytes a))) + 1)%nat by lia.
  rewrite (nth_content pre a t b R 1) by lia.
  pose proof (nth_content pre a t b R 0 ltac:(lia)) as N0. rewrite Nat.add_0_r in N0. rewrite N0. clear N0.
  destruct (fl_content t) as [|c0 [|c1 [|? ?]]]; try discriminate. cbn [nth Nat.eqb orb].
  cbn [eqbl].
  destruct (c0 =? 1); cbn [negb orb andb]; [|reflexivity]. destruct (c1 =? 4); cbn [negb orb andb]; [|reflexivity].
  clear Et t a b Efs Ha Hid Hlen.
  pose proof (find_code 129 fs pre R fuel Ho HR Hf) as F2. change (fun f : field => fl_id f =? 129) with is_pages in F2.
  destruct (find is_pages fs) as [g|] eqn:Eg; [|rewrite F2; reflexivity].
  destruct F2 as (a & b & Efs & Ha & Hid & ->). cbn [Nat.eqb].
  rewrite pages_ceil by lia.
  assert (Ep : put_at (S (S (length (pre ++ fields_bytes a)))) (u8 (ceil_div size 16384)) (pre ++ fields_bytes fs ++ R) =
     pre ++ fields_bytes (update_first is_pages [ceil_div size 16384 mod 256] fs) ++ R).
  { rewrite Efs in *. rewrite update_skip by exact Ha. cbn [update_first]. unfold is_pages at 1. rewrite Hid. cbn [Z.eqb Pos.eqb].
    apply Forall_app in Ho. destruct Ho as (_ & Ho). inversion Ho as [|? ? (Hi & Hk) _]; subst. rewrite Hid in Hk. change (129 mod 16) with 1 in Hk.
    destruct (fl_content g) as [|x [|? ?]] eqn:Ec; try (exfalso; cbn [length] in Hk; lia).
    rewrite !fields_app, !fields_cons. cbn [fl_id fl_content]. rewrite Ec, Hid. rewrite <- !app_assoc. cbn [app].
    rewrite (app_assoc pre), (app_assoc pre).
    set (Q := pre ++ fields_bytes a).
    replace (Q ++ 128 :: 129 :: x :: fields_bytes b ++ R) with ((Q ++ [128; 129]) ++ x :: fields_bytes b ++ R) by (rewrite <- app_assoc; reflexivity).
    replace (S (S (length Q))) with (length (Q ++ [128; 129])) by (rewrite app_length; simpl; lia).
    rewrite put_at_pre, <- app_assoc. reflexivity. }
  rewrite Ep. set (fs2 := update_first is_pages [ceil_div size 16384 mod 256] fs).
  assert (Ho2 : Forall field_ok fs2) by (apply update_ok; exact Ho).
  assert (Hl2 : length fs2 = length fs).
  { unfold fs2. clear. generalize [ceil_div size 16384 mod 256]. intros v. induction fs as [|f fs IH]; simpl; [reflexivity|].
    destruct (is_pages f); simpl; [reflexivity|]. now rewrite IH. }
  pose proof (find_name fs2 pre R fuel Ho2 HR ltac:(lia)) as F3. unfold fs2 in F3 at 1. rewrite update_name in F3.
  destruct (find is_name fs) as [n|] eqn:En; [|rewrite F3; reflexivity].
  destruct F3 as (a' & b' & E2 & ->). f_equal. f_equal; [f_equal|].
  - unfold R. assert (El : length data = length (pre ++ fields_bytes fs2 ++ code)).
    { unfold data, app_bytes. rewrite app_assoc, app_length, (app_length pre). 
      rewrite !app_length. replace (length (fields_bytes fs2)) with (length (fields_bytes fs)); [unfold pre; rewrite !app_length, H4; reflexivity|].
      unfold fs2. rewrite Efs in *. rewrite update_skip by exact Ha. cbn [update_first]. unfold is_pages at 1. rewrite Hid. cbn [Z.eqb Pos.eqb].
      apply Forall_app in Ho. destruct Ho as (_ & Ho). inversion Ho as [|? ? (Hi & Hk) _]; subst. rewrite Hid in Hk. change (129 mod 16) with 1 in Hk.
      rewrite !fields_app, !fields_cons. cbn [fl_content]. rewrite !app_length. cbn [length]. rewrite !app_length. cbn [length]. lia. }
    rewrite El. replace (pre ++ fields_bytes fs2 ++ code ++ repeat 0 256) with ((pre ++ fields_bytes fs2 ++ code) ++ repeat 0 256) by (now rewrite <- !app_assoc).
    rewrite firstn_app, firstn_all, Nat.sub_diag. simpl firstn. rewrite app_nil_r. unfold app_bytes, pre, fs2. now rewrite <- !app_assoc.
  - rewrite E2, fields_app, fields_cons.
    set (Q := (pre ++ fields_bytes a') ++ [128; fl_id n]).
    replace (pre ++ (fields_bytes a' ++ 128 :: fl_id n :: fl_content n ++ fields_bytes b') ++ R)
      with (Q ++ fl_content n ++ fields_bytes b' ++ R) by (unfold Q; rewrite <- !app_assoc; cbn [app]; now rewrite <- !app_assoc).
    replace (S (S (length (pre ++ fields_bytes a')))) with (length Q) by (unfold Q; rewrite (app_length _ [_; _]); simpl; lia).
    rewrite map_nth_seq by lia. clear. generalize (fl_content n) (S (S (length pre))). intros l k.
    destruct (Nat.le_gt_cases (length l) k); [|rewrite Nat.min_r by lia; reflexivity].
    rewrite Nat.min_l by lia. now rewrite firstn_all, firstn_all2.
Qed.

(** * The length of the Intel HEX text *)
Lemma hexw_2_length z : 0 <= z < 256 -> length (hexw 2 z) = 2%nat.
Proof. intros H. now rewrite hexw_2 by lia. Qed.
Lemma hexw_4_length z : 0 <= z < 65536 -> length (hexw 4 z) = 4%nat.
Proof. intros H. now rewrite hexw_4 by lia. Qed.

(** Text of the records for [n] bytes. *)
Definition records_size (n : Z) : Z := 77 * (n / 32) + (if n mod 32 =? 0 then 0 else 2 * (n mod 32) + 13).
Lemma record_length addr buf : bytes buf -> 0 <= addr < 65536 ->
  zlen (fst (ih_record addr buf)) = 13 + 2 * Z.min 32 (zlen buf).
Proof.
  intros Hb Ha. destruct (ih_record_spec addr buf Hb Ha) as (cs & Hc & E & _). rewrite E. cbn [fst].
  unfold zlen. cbn [length]. rewrite app_length, hexs_length. unfold rec_bytes. cbn [length app crlf]. rewrite app_length. cbn [length].
  rewrite firstn_length. lia.
Qed.
Lemma records_length n : forall addr buf, bytes buf -> 0 <= addr -> addr + 32 * Z.of_nat n <= 65536 ->
  zlen (fst (ih_records n addr buf)) = records_size (Z.min (32 * Z.of_nat n) (zlen buf)).
Proof.
  induction n as [|n IH]; intros addr buf Hb Ha Hn.
  - cbn [ih_records fst]. replace (Z.min (32 * Z.of_nat 0) (zlen buf)) with 0 by (unfold zlen; lia). reflexivity.
  - destruct buf as [|x buf]; [cbn [ih_records fst]; replace (Z.min (32 * Z.of_nat (S n)) (@zlen Z [])) with 0 by (unfold zlen; simpl; lia); reflexivity|].
    cbn [ih_records]. set (b := x :: buf) in *.
    destruct (ih_record_spec addr b Hb ltac:(lia)) as (cs & Hc & E & _).
    pose proof (record_length addr b Hb ltac:(lia)) as L. rewrite E in *. cbn [fst] in L.
    specialize (IH (addr + 32) (skipn 32 b) ltac:(apply bytes_skipn; exact Hb) ltac:(lia) ltac:(lia)).
    destruct (ih_records n (addr + 32) (skipn 32 b)) as [ts rest']. cbn [fst] in *.
    unfold zlen in *. rewrite app_length, Nat2Z.inj_add, L, IH, skipn_length.
    assert (H1 : (1 <= length b)%nat) by (unfold b; simpl; lia).
    unfold records_size. set (m := length b) in *. clearbody m. clear -H1 Hn.
    destruct (Z.le_gt_cases 32 (Z.of_nat m)).
    + replace (Z.min (32 * Z.of_nat (S n)) (Z.of_nat m)) with (32 + Z.min (32 * Z.of_nat n) (Z.of_nat (m - 32))) by lia.
      set (k := Z.min (32 * Z.of_nat n) _). replace ((32 + k) / 32) with (1 + k / 32) by lia. replace ((32 + k) mod 32) with (k mod 32) by lia. lia.
    + replace (Z.min (32 * Z.of_nat n) (Z.of_nat (m - 32))) with 0 by lia.
      replace (Z.min (32 * Z.of_nat (S n)) (Z.of_nat m)) with (Z.of_nat m) by lia.
      replace (Z.of_nat m mod 32 =? 0) with false by lia. change (0 mod 32 =? 0) with true. lia.
Qed.

Lemma pages_length fuel : forall page buf, bytes buf -> (length buf <= fuel)%nat -> 0 <= page -> 16384 * page + zlen buf <= 16384 * 65536 ->
  zlen (ih_pages fuel page 16384 buf) = 17 * ceil_div (zlen buf) 16384 + records_size (zlen buf).
Proof.
  induction fuel as [|fuel IH]; intros page buf Hb Hl Hp Hs.
  - destruct buf; [reflexivity|simpl in Hl; lia].
  - destruct buf as [|x buf]; [reflexivity|]. set (b := x :: buf) in *. 
    change (ih_pages (S fuel) page 16384 b) with
      (let '(t, rest) := ih_records 512 16384 b in
       zs ":02000002" ++ hexw 4 page ++ hexw 2 (u8 (Z.lnot (4 + page) + 1)) ++ crlf ++ t ++ ih_pages fuel (page + 1) 16384 rest).
    pose proof (records_length 512 16384 b Hb ltac:(lia) ltac:(lia)) as L.
    destruct (Reads_records false 0 512 16384 b [] None Hb ltac:(lia) ltac:(lia)) as (_ & R).
    { intros f Hf'. destruct f; [lia|]. reflexivity. }
    destruct (ih_records 512 16384 b) as [t rest]. cbn [fst snd] in *. subst rest.
    pose proof (ih_records_nonempty_consumes b ltac:(discriminate)) as Hcons.
    assert (Hz : (1 <= length b)%nat) by (unfold b; simpl; lia).
    specialize (IH (page + 1) (skipn (32 * 512) b) ltac:(apply bytes_skipn; exact Hb) ltac:(lia) ltac:(lia)).
    unfold zlen in *. rewrite skipn_length in IH. rewrite !app_length, hexw_4_length by lia.
    rewrite hexw_2_length by (apply u8_byte). cbn [crlf length zs].
    set (m := length b) in *. clearbody m. revert L IH. generalize (length t). intros lt L IH.
    replace (length (zs ":02000002")) with 9%nat by reflexivity.
    rewrite !Nat2Z.inj_add, L, IH by lia. unfold records_size, ceil_div. clear -Hz.
    destruct (Z.le_gt_cases (Z.of_nat m) 16384).
    + replace (Z.min (32 * Z.of_nat 512) (Z.of_nat m)) with (Z.of_nat m) by lia.
      replace (m - 32 * 512)%nat with 0%nat by lia. change (Z.of_nat 0) with 0.
      replace ((Z.of_nat m + 16384 - 1) / 16384) with 1 by lia. change ((0 + 16384 - 1) / 16384) with 0. change (0 mod 32 =? 0) with true.
      change (0 / 32) with 0. lia.
    + replace (Z.min (32 * Z.of_nat 512) (Z.of_nat m)) with 16384 by lia.
      change (16384 mod 32 =? 0) with true. change (16384 / 32) with 512.
      replace (Z.of_nat (m - 32 * 512)) with (Z.of_nat m - 16384) by lia. set (z := Z.of_nat m) in *. clearbody z.
      replace ((z - 16384) / 32) with (z / 32 - 512) by lia. replace ((z - 16384) mod 32) with (z mod 32) by lia.
      replace ((z - 16384 + 16384 - 1) / 16384) with ((z + 16384 - 1) / 16384 - 1) by lia. lia.
Qed.

Lemma intelhex_length buf : bytes buf -> zlen buf <= 16384 * 65536 ->
  zlen (intelhex buf) = 17 * ceil_div (zlen buf) 16384 + records_size (zlen buf) + 11.
Proof.
  intros Hb Hl. unfold intelhex, intelhex_at. unfold zlen at 1. rewrite app_length, Nat2Z.inj_add.
  change (Z.of_nat (length (ih_pages (length buf) 0 16384 buf))) with (zlen (ih_pages (length buf) 0 16384 buf)).
  rewrite pages_length by (auto; lia). reflexivity.
Qed.

(** * The signature block has 96 bytes *)
Lemma hexmin_length k : forall z, 0 <= z < 16 ^ Z.of_nat (S k) -> (1 <= length (hexmin z) <= S k)%nat.
Proof.
  induction k as [|k IH]; intros z Hz; rewrite hexmin_step by lia.
  - change (16 ^ Z.of_nat 1) with 16 in Hz. replace (z <? 16) with true by lia. simpl. lia.
  - destruct (z <? 16) eqn:E; [simpl; lia|]. rewrite app_length. simpl length.
    rewrite Nat2Z.inj_succ, Z.pow_succ_r in Hz by lia.
    specialize (IH (z / 16) ltac:(split; [lia|apply Z.div_lt_upper_bound; lia])). lia.
Qed.
Lemma to_le_length n : forall z, length (to_le n z) = n.
Proof. induction n; intros z; simpl; auto. Qed.
Lemma to_le_bytes n : forall z, bytes (to_le n z).
Proof. induction n; intros z; simpl; constructor; [unfold is_byte; lia|apply IHn]. Qed.

Lemma powm_pos_range b e m : 0 < m -> 0 <= powm_pos b e m < m.
Proof. intros H. destruct e; simpl; lia. Qed.
Lemma powm_range b e m : 0 < m -> 0 <= powm b e m < m.
Proof. intros H. destruct e; simpl; [lia|now apply powm_pos_range|lia]. Qed.

Lemma sig_pq : sig_p * sig_q = sig_n. Proof. vm_compute. reflexivity. Qed.
Lemma sig_sizes : 2 < sig_p /\ 2 < sig_q /\ sig_n < 16 ^ 128.
Proof. vm_compute. auto. Qed.

Lemma siggen_range hash : 0 <= fst (siggen hash) < sig_n /\ 0 <= snd (siggen hash) <= 3.
Proof.
  destruct sig_sizes as (Hp & Hq & _). unfold siggen. cbv zeta. cbn [fst snd]. split.
  - match goal with |- context [powm ?b sig_q14 sig_q] => pose proof (powm_range b sig_q14 sig_q ltac:(lia)) as R; set (s := powm b sig_q14 sig_q) in * end.
    match goal with |- context [?x mod sig_p] => pose proof (Z.mod_pos_bound x sig_p ltac:(lia)) as R2; set (r := x mod sig_p) in * end.
    rewrite <- sig_pq. clearbody r s. revert R R2 Hp Hq. generalize sig_p sig_q. intros p q. nia.
  - destruct (is_residue _ sig_p), (is_residue _ sig_q); simpl; lia.
Qed.

Lemma sig_block_ok hash : length (sig_block hash) = 96%nat /\ bytes (sig_block hash).
Proof.
  destruct (siggen_range hash) as (R & F). destruct sig_sizes as (_ & _ & Hn). unfold sig_block.
  destruct (siggen hash) as [sig f]. cbn [fst snd] in *. cbv zeta.
  assert (L : (siglength sig <= 64)%nat).
  { unfold siglength. pose proof (hexmin_length 127 sig (conj (proj1 R) (Z.lt_trans _ _ _ (proj2 R) Hn))) as H.
    revert H. generalize (length (hexmin sig)). intros n H. pose proof (Nat.div_lt_upper_bound (n + 1) 2 65 ltac:(lia) ltac:(lia)). lia. }
  set (t := [2; 45; Z.of_nat (siglength sig)] ++ to_le (siglength sig) sig ++ (if f =? 0 then [0] else [1; f])).
  assert (Lt : (length t <= 96)%nat).
  { unfold t. rewrite !app_length, to_le_length. destruct (f =? 0); simpl; lia. }
  split; [rewrite app_length, repeat_length; lia|].
  unfold bytes. apply Forall_app. split.
  - unfold t. rewrite !Forall_app. split; [|split; [apply to_le_bytes|]].
    + repeat constructor; unfold is_byte; lia.
    + destruct (f =? 0); repeat constructor; unfold is_byte; lia.
  - apply Forall_forall. intros x Hx. apply repeat_spec in Hx. subst. unfold is_byte. lia.
Qed.
