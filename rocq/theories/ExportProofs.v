(** Lemmas on the output file formats. *)
From Verif Require Import Base BaseProofs State MonadProofs UtilsModel ErrorsModel PassTwoModel IhexModel ExportModel
  StorageSpec ExportSpec.

Lemma total_app a b : total (a ++ b) = total a + total b.
Proof. induction a; simpl; lia. Qed.
Lemma total_zeros n : total (repeat 0 n) = 0.
Proof. induction n; simpl; lia. Qed.
Lemma sum_total l : ExportModel.sum l = total l.
Proof. reflexivity. Qed.
Lemma le2_alt z : le2 z = [z mod 256; z / 256 mod 256].
Proof. unfold le2, u8. now rewrite shiftr_8. Qed.

(** * The whole file *)
Definition sect (calc : calc_type) (prgmname : text) (data : list Z) : list Z :=
  let nm := prgm_name calc prgmname in
  let size := prgm_size calc (zlen data) in
  let first := if is_85P calc then byte_of (6 + zlen nm) else byte_of (nth 3 (typearray calc) 0) in
  let kind := if before_85P calc then [if is_8XV calc then 21 else 6]
              else [(if from_85S calc then 12 else 18); byte_of (zlen nm)] in
  let nm8 := firstn 8 nm in
  let pad := if is_85P calc || is_85S calc then [] else repeat 0 (8 - length nm8) in
  let two := if is_8XP calc || is_8XV calc then [0; 0] else [] in
  [first; 0] ++ le2 size ++ kind ++ nm8 ++ pad ++ two ++ le2 size ++ le2 (size - 2) ++ prgm_prefix calc ++ prgm_body calc data.
Definition len_field (calc : calc_type) (prgmname : text) (data : list Z) : Z :=
  let nm := prgm_name calc prgmname in
  let size := prgm_size calc (zlen data) in
  if is_85P calc then size + 8 + zlen nm
  else size + 15 + (if is_8XP calc || is_8XV calc then 2 else 0) + (if is_86P calc then 1 else 0).

Definition is_var (calc : calc_type) : bool :=
  match calc with TYPE_8XK | TYPE_ROM | TYPE_HEX | TYPE_BIN => false | _ => true end.

Lemma makeprgm_shape calc nm data : is_var calc = true -> exists hdr, length hdr = 53%nat /\
  makeprgm_bytes calc nm data = hdr ++ le2 (len_field calc nm data) ++ sect calc nm data ++ le2 (total (sect calc nm data)).
Proof.
  intros Hv. unfold makeprgm_bytes.
  set (hdr := zs "**TI" ++ firstn 3 (typearray calc) ++ (if is_85P calc then [42; 26; 12; 10] else [42; 26; 10; 0]) ++ comment).
  exists hdr. split; [unfold hdr; destruct calc; try discriminate; reflexivity|].
  cbv zeta. fold (len_field calc nm data). unfold sect. cbv zeta. rewrite <- !app_assoc. do 2 f_equal.
  repeat (f_equal; []). rewrite !sum_total, !total_app.
  assert (Hp : total (if is_85P calc || is_85S calc then [] else repeat 0 (8 - length (firstn 8 (prgm_name calc nm)))) = 0).
  { destruct (is_85P calc || is_85S calc); [reflexivity|apply total_zeros]. }
  assert (Ht : total (if is_8XP calc || is_8XV calc then [0; 0] else []) = 0).
  { destruct (is_8XP calc || is_8XV calc); reflexivity. }
  rewrite Hp, Ht.
  match goal with |- ?x + _ + _ + _ + _ = _ => set (X := x) end.
  change (total [X; 0]) with (X + (0 + 0)). change ExportModel.sum with total. lia.
Qed.

Lemma split_shape hdr a b sec c d : length hdr = 53%nat ->
  split_file (hdr ++ [a; b] ++ sec ++ [c; d]) = Some (mkvf (a + 256 * b) sec (c + 256 * d)).
Proof.
  intros H. unfold split_file.
  assert (L : length (hdr ++ [a; b] ++ sec ++ [c; d]) = (57 + length sec)%nat) by (rewrite !app_length, H; simpl; lia).
  rewrite L. replace (57 + length sec <? 57)%nat with false by (symmetry; apply Nat.ltb_ge; lia).
  replace (57 + length sec - 57)%nat with (length sec) by lia.
  assert (N : forall i x, i = (53 + x)%nat -> nth i (hdr ++ [a; b] ++ sec ++ [c; d]) 0 = nth x ([a; b] ++ sec ++ [c; d]) 0).
  { intros i x ->. rewrite app_nth2 by lia. f_equal. lia. }
  f_equal. f_equal.
  - unfold rd16. rewrite (N _ O), (N _ 1%nat) by lia. reflexivity.
  - rewrite skipn_app, H. replace (55 - 53)%nat with 2%nat by lia. rewrite skipn_all2 by lia. simpl.
    rewrite firstn_app, firstn_all, Nat.sub_diag. simpl. apply app_nil_r.
  - unfold rd16. rewrite (N _ (2 + length sec)%nat), (N _ (2 + S (length sec))%nat) by lia. simpl nth. rewrite !app_nth2 by lia.
    replace (length sec - length sec)%nat with O by lia.
    replace (S (length sec) - length sec)%nat with 1%nat by lia. reflexivity.
Qed.

Lemma le2_value z : z mod 256 + 256 * (z / 256 mod 256) = z mod 65536.
Proof. lia. Qed.

Lemma makeprgm_split calc nm data : is_var calc = true ->
  split_file (makeprgm_bytes calc nm data) =
  Some (mkvf (len_field calc nm data mod 65536) (sect calc nm data) (total (sect calc nm data) mod 65536)).
Proof.
  intros Hv. destruct (makeprgm_shape calc nm data Hv) as (hdr & H & ->). rewrite !le2_alt.
  rewrite split_shape by exact H. now rewrite !le2_value.
Qed.

Lemma hexw2_length b : is_byte b -> length (hexw 2 b) = 2%nat.
Proof. intros H. unfold is_byte in H. rewrite hexw_2 by lia. reflexivity. Qed.
Lemma hex_body_length data : bytes data -> length (flat_map (fun b => hexw 2 b) data) = (2 * length data)%nat.
Proof. induction 1 as [|b l Hb _ IH]; simpl; [reflexivity|]. rewrite app_length, hexw2_length, IH by assumption. lia. Qed.

Lemma sect_length calc nm data : bytes data -> is_var calc = true ->
  zlen (sect calc nm data) =
  match calc with
  | TYPE_85P | TYPE_85S => 10 + zlen (firstn 8 (prgm_name calc nm)) + zlen data
  | TYPE_86S => 18 + zlen data
  | _ => len_field calc nm data
  end.
Proof.
  intros Hb Hv. unfold sect, len_field, prgm_size, prgm_size0, zlen. cbv zeta. rewrite !app_length.
  assert (Hn : (length (firstn 8 (prgm_name calc nm)) <= 8)%nat) by (rewrite firstn_length; lia).
  destruct calc; try discriminate; cbn [is_85P is_85S is_8XP is_8XV is_82P is_83P is_86P before_85P from_85S orb];
    unfold prgm_body; cbn [is_83P prgm_prefix is_86P is_82P]; unfold le2; cbn [length];
    rewrite ?repeat_length, ?app_length, ?hex_body_length by assumption; cbn [length trailer83]; try lia.
Qed.

(** * The variable inside *)
Lemma to_zero_pad l n : Forall (fun c => c <> 0) l -> to_zero (l ++ repeat 0 n) = l.
Proof.
  induction 1 as [|c l Hc _ IH]; simpl.
  - destruct n; reflexivity.
  - replace (c =? 0) with false by lia. now rewrite IH.
Qed.

Lemma eight {A} (l : list A) : length l = 8%nat -> exists a b c d e f g h, l = [a; b; c; d; e; f; g; h].
Proof.
  intros H. do 8 (destruct l as [|? l]; [discriminate|]). destruct l; [|discriminate]. repeat eexists.
Qed.

Definition padded (calc : calc_type) : bool :=
  match calc with TYPE_73P | TYPE_82P | TYPE_83P | TYPE_8XP | TYPE_8XV | TYPE_86P => true | _ => false end.
Definition var_kind (calc : calc_type) : Z :=
  match calc with TYPE_8XV => 21 | TYPE_86P => 18 | _ => 6 end.
Definition is_sized (calc : calc_type) : bool := match calc with TYPE_86P => true | _ => false end.

Lemma plain_section (sized : bool) n kind two a b c d e f g h size body : size < 65536 -> 2 <= size -> zlen body = size - 2 ->
  (two = [] \/ two = [0; 0]) -> (n <= 8)%nat ->
  read_section sized ([11 + zlen two + (if sized then 1 else 0); 0] ++ le2 size ++ (kind :: if sized then [Z.of_nat n] else []) ++ [a; b; c; d; e; f; g; h] ++
     two ++ le2 size ++ le2 (size - 2) ++ body) =
  Some (mkvar kind (if sized then firstn n [a; b; c; d; e; f; g; h] else to_zero (firstn 8 [a; b; c; d; e; f; g; h])) body).
Proof.
  intros Hs Hlo Hbody Ht Hn8. rewrite !le2_alt.
  assert (V1 : size mod 256 + 256 * (size / 256 mod 256) = size) by (rewrite le2_value; lia).
  assert (V2 : (size - 2) mod 256 + 256 * ((size - 2) / 256 mod 256) = size - 2) by (rewrite le2_value; lia).
  unfold zlen in Hbody. unfold read_section, rd16.
  assert (T : forall x y z, x = size -> y = size -> z = size - 2 -> (x =? size) && (y =? size) && (z =? size - 2) = true).
  { intros x y z -> -> ->. rewrite !Z.eqb_refl. reflexivity. }
  destruct sized, Ht as [-> | ->]; cbn [zlen length app nth];
  match goal with |- context [Z.to_nat (?e + 256 * 0)] => let v := eval vm_compute in (Z.to_nat (e + 256 * 0)) in change (Z.to_nat (e + 256 * 0)) with v end;
  cbn [Nat.add nth skipn length firstn]; rewrite V1, V2, T by lia; rewrite ?Nat2Z.id; try reflexivity;
  (do 9 (destruct n as [|n]; [reflexivity|])); exfalso; lia.
Qed.

Lemma sect_read calc nm data : bytes data -> padded calc = true ->
  Forall (fun c => c <> 0) (prgm_name calc nm) ->
  (calc = TYPE_86P -> (length (prgm_name calc nm) <= 8)%nat) ->
  prgm_size calc (zlen data) < 65536 ->
  read_section (is_sized calc) (sect calc nm data) =
  Some (mkvar (var_kind calc) (firstn 8 (prgm_name calc nm)) (prgm_prefix calc ++ prgm_body calc data)).
Proof.
  intros Hb Hp Hn H8 Hs.
  set (nm8 := firstn 8 (prgm_name calc nm)).
  assert (L8 : length (nm8 ++ repeat 0 (8 - length nm8)) = 8%nat).
  { rewrite app_length, repeat_length. assert (length nm8 <= 8)%nat by (unfold nm8; rewrite firstn_length; lia). lia. }
  assert (Hz : to_zero (nm8 ++ repeat 0 (8 - length nm8)) = nm8).
  { apply to_zero_pad. unfold nm8. clear -Hn. revert Hn. generalize (prgm_name calc nm). intros l Hl.
    rewrite <- (firstn_skipn 8 l) in Hl. apply Forall_app in Hl. tauto. }
  assert (Hsz : forall k, firstn (length nm8) ((nm8 ++ repeat 0 (8 - length nm8)) ++ k) = nm8).
  { intros k. rewrite <- app_assoc, firstn_app, firstn_all, Nat.sub_diag. simpl. apply app_nil_r. }
  assert (Hlen : calc = TYPE_86P -> byte_of (zlen (prgm_name calc nm)) = Z.of_nat (length nm8)).
  { intros E. specialize (H8 E). unfold byte_of, zlen, nm8. rewrite firstn_length, u8_id by (unfold is_byte; lia). lia. }
  set (size := prgm_size calc (zlen data)) in *.
  assert (Hbody : zlen (prgm_prefix calc ++ prgm_body calc data) = size - 2).
  { unfold size, prgm_size, prgm_size0, zlen. rewrite app_length. unfold prgm_body, prgm_prefix.
    destruct calc; try discriminate; cbn [is_83P is_86P is_82P]; rewrite ?app_length, ?hex_body_length by assumption; cbn [length trailer83]; lia. }
  assert (Hlo : 2 <= size).
  { unfold size, prgm_size, prgm_size0, zlen. destruct calc; try discriminate; cbn [is_83P is_86P is_82P]; lia. }
  set (body := prgm_prefix calc ++ prgm_body calc data) in *.
  assert (Esect : exists first two kind1, sect calc nm data =
     [first; 0] ++ le2 size ++ (var_kind calc :: kind1) ++ (nm8 ++ repeat 0 (8 - length nm8)) ++ two ++ le2 size ++ le2 (size - 2) ++ body /\
     first = 11 + zlen two + zlen kind1 /\ (two = [] \/ two = [0; 0]) /\
     kind1 = if is_sized calc then [Z.of_nat (length nm8)] else []).
  { unfold sect. cbv zeta. fold nm8 size body.
    destruct calc; try discriminate; cbn [is_85P is_85S is_8XP is_8XV before_85P from_85S orb is_sized var_kind] in *;
      [exists 11, [], []|exists 11, [], []|exists 11, [], []|exists 13, [0; 0], []|exists 13, [0; 0], []|exists 12, [], [Z.of_nat (length nm8)]; rewrite (Hlen eq_refl)];
      (split; [rewrite <- ?app_assoc; reflexivity|split; [reflexivity|split; [auto|reflexivity]]]). }
  destruct Esect as (first & two & kind1 & -> & Hf & Ht & Hk).
  assert (E8 : exists a b c d e f g h, nm8 ++ repeat 0 (8 - length nm8) = [a; b; c; d; e; f; g; h]) by (now apply eight).
  set (N := nm8 ++ repeat 0 (8 - length nm8)) in *. destruct E8 as (a & b & c & d & e & f & g & h & E8).
  assert (Hname : (if is_sized calc then firstn (length nm8) N else to_zero (firstn 8 N)) = nm8).
  { destruct (is_sized calc); [rewrite <- (app_nil_r N); apply Hsz|rewrite E8; cbn [firstn]; rewrite <- E8; exact Hz]. }
  clear Hsz Hz. rewrite E8 in *. clear E8 N L8.
  pose proof (plain_section (is_sized calc) (length nm8) (var_kind calc) two a b c d e f g h size body Hs Hlo Hbody Ht ltac:(unfold nm8; rewrite firstn_length; lia)) as P.
  rewrite Hname in P. rewrite <- P, Hf, Hk. clear. unfold zlen. destruct (is_sized calc), two as [|? [|? ?]]; reflexivity.
Qed.
