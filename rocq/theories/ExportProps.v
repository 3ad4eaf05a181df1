(** Theorems on output files: C27, C28, C29, C31. *)
From Verif Require Import Base BaseProofs State MonadProofs UtilsModel UtilsProofs ErrorsModel PassTwoModel IhexModel IhexSpec IhexProofs ExportModel
  StorageSpec ExportSpec ExportProofs AppProofs.

(** * C27: a ROM image starts with the program, is 512 KiB or as long as the program, and the
    rest is FF. *)
Theorem c27_rom_image : forall data,
  firstn (length data) (makerom data) = data /\
  zlen (makerom data) = Z.max 524288 (zlen data) /\
  Forall (fun b => b = 255) (skipn (length data) (makerom data)).
Proof.
  intros data. unfold makerom. rewrite firstn_app, firstn_all, Nat.sub_diag, skipn_app, skipn_all, Nat.sub_diag. cbn [firstn skipn app].
  rewrite app_nil_r. split; [reflexivity|]. split.
  - unfold zlen. rewrite app_length, repeat_length.
    assert (E : Z.of_nat ROM_SIZE = 524288) by (vm_compute; reflexivity). lia.
  - apply Forall_forall. intros x Hx. exact (repeat_spec _ _ _ Hx).
Qed.
(* Both sides of the boundary. *)
Example c27_short : zlen (makerom [1; 2; 3]) = 524288.
Proof. now rewrite (proj1 (proj2 (c27_rom_image _))). Qed.
Example c27_long : zlen (makerom (repeat 7 (Z.to_nat 600000))) = 600000.
Proof. rewrite (proj1 (proj2 (c27_rom_image _))). unfold zlen. rewrite repeat_length. rewrite Z2Nat.id by lia. reflexivity. Qed.

(** * C28 *)
(** The checksum is right in every format, for every name and program. *)
Theorem c28_checksum : forall calc name data, is_var calc = true ->
  exists v, split_file (makeprgm_bytes calc name data) = Some v /\ vf_checksum v = total (vf_section v) mod 65536.
Proof. intros calc name data Hv. rewrite makeprgm_split by exact Hv. eexists. split; [reflexivity|]. reflexivity. Qed.

(** The length field is right except for .85s and .86s files, and for .85p files with a name
    of more than 8 characters. *)
Theorem c28_variable_files_partial : forall calc name data, is_var calc = true -> bytes data ->
  calc <> TYPE_85S -> calc <> TYPE_86S -> (calc = TYPE_85P -> (length (prgm_name calc name) <= 8)%nat) ->
  var_file_ok (makeprgm_bytes calc name data).
Proof.
  intros calc name data Hv Hb H1 H2 H3. unfold var_file_ok. rewrite makeprgm_split by exact Hv. eexists. split; [reflexivity|].
  cbn [vf_length vf_section vf_checksum]. split; [|reflexivity].
  change (Z.of_nat (length (sect calc name data))) with (zlen (sect calc name data)). rewrite sect_length by assumption.
  destruct calc; try reflexivity; try congruence; try discriminate.
  unfold len_field. cbn [is_85P prgm_size prgm_size0 is_83P is_86P is_82P]. specialize (H3 eq_refl).
  unfold zlen. rewrite firstn_length, Nat.min_r by lia. f_equal. unfold prgm_size, prgm_size0. cbn [is_83P is_86P is_82P]. lia.
Qed.
Example c28_case : var_file_ok (makeprgm_bytes TYPE_8XP (zs "dir/hello") [187; 109; 201]) /\ var_file_ok (makeprgm_bytes TYPE_85P (zs "hello") [201]).
Proof. split; apply c28_variable_files_partial; try discriminate; try reflexivity; try (repeat constructor; unfold is_byte; lia). Qed.

(** In a .86s file the length field is always one less than the section; in a .85s file it is
    off unless the name has exactly 7 characters. *)
Theorem c28_variable_files_refuted :
  (forall name data, bytes data -> ~ var_file_ok (makeprgm_bytes TYPE_86S name data)) /\
  (forall name data, bytes data -> length (prgm_name TYPE_85S name) <> 7%nat -> ~ var_file_ok (makeprgm_bytes TYPE_85S name data)) /\
  (forall name data, bytes data -> 8 < zlen (prgm_name TYPE_85P name) < 65536 -> ~ var_file_ok (makeprgm_bytes TYPE_85P name data)).
Proof.
  assert (K : forall calc name data, is_var calc = true -> var_file_ok (makeprgm_bytes calc name data) ->
     len_field calc name data mod 65536 = zlen (sect calc name data) mod 65536).
  { intros calc name data Hv (v & E & L & _). rewrite makeprgm_split in E by exact Hv. injection E as <-. exact L. }
  split; [|split].
  - intros name data Hb Hc. apply K in Hc; [|reflexivity]. rewrite sect_length in Hc by auto.
    unfold len_field, prgm_size, prgm_size0 in Hc. cbn [is_85P is_83P is_86P is_82P is_8XP is_8XV orb] in Hc. unfold zlen in *. lia.
  - intros name data Hb Hn Hc. apply K in Hc; [|reflexivity]. rewrite sect_length in Hc by auto.
    unfold len_field, prgm_size, prgm_size0 in Hc. cbn [is_85P is_83P is_86P is_82P is_8XP is_8XV orb] in Hc. unfold zlen in *.
    rewrite firstn_length in Hc. lia.
  - intros name data Hb Hn Hc. apply K in Hc; [|reflexivity]. rewrite sect_length in Hc by auto.
    unfold len_field, prgm_size, prgm_size0 in Hc. cbn [is_85P is_83P is_86P is_82P is_8XP is_8XV orb] in Hc. unfold zlen in *.
    rewrite firstn_length in Hc. lia.
Qed.

(** Reading the file back gives the variable: its type, the stored name (at most 8 characters
    of it) and the program, for every program that fits. *)
Theorem c28_read_back : forall calc name data, bytes data -> padded calc = true ->
  Forall (fun c => c <> 0) (prgm_name calc name) ->
  (calc = TYPE_86P -> (length (prgm_name calc name) <= 8)%nat) ->
  zlen (makeprgm_bytes calc name data) < 57 + 65536 ->
  read_var (is_sized calc) (makeprgm_bytes calc name data) =
  Some (mkvar (var_kind calc) (firstn 8 (prgm_name calc name)) (prgm_prefix calc ++ prgm_body calc data)).
Proof.
  intros calc name data Hb Hp Hn H8 Hl.
  assert (Hv : is_var calc = true) by (destruct calc; try discriminate; reflexivity).
  unfold read_var. rewrite makeprgm_split by exact Hv. cbn [vf_length vf_section vf_checksum].
  change (Z.of_nat (length (sect calc name data))) with (zlen (sect calc name data)). rewrite sect_length by assumption.
  assert (E : match calc with TYPE_85P | TYPE_85S => 10 + zlen (firstn 8 (prgm_name calc name)) + zlen data | TYPE_86S => 18 + zlen data
     | _ => len_field calc name data end = len_field calc name data) by (destruct calc; try discriminate; reflexivity).
  assert (Hf : zlen (makeprgm_bytes calc name data) = 57 + len_field calc name data).
  { destruct (makeprgm_shape calc name data Hv) as (hdr & Hh & ->). unfold zlen. rewrite !app_length, Hh. cbn [le2 length].
    rewrite <- E, <- sect_length by assumption. unfold zlen. lia. }
  rewrite E. assert (Hs : 0 <= prgm_size calc (zlen data) <= len_field calc name data).
  { unfold len_field, prgm_size, prgm_size0, zlen. destruct calc; try discriminate; cbn [is_85P is_83P is_86P is_82P is_8XP is_8XV orb]; lia. }
  rewrite Z.mod_small by lia. rewrite !Z.eqb_refl. cbn [andb]. apply sect_read; auto. lia.
Qed.

(** The name stored and the bytes stored, for a file [dir/nm.ext]. *)
Definition upper (t : text) : text := map fold_case t.
Lemma alphanumeric_upper s : fst (alphanumeric true false s) = upper s.
Proof.
  induction s as [|c s IH]; simpl; [reflexivity|]. destruct (alphanumeric true false s) as [t w]. simpl in *. rewrite IH. f_equal.
Qed.
Lemma alphanumeric_lower s : fst (alphanumeric false true s) = s.
Proof. induction s as [|c s IH]; simpl; [reflexivity|]. destruct (alphanumeric false true s) as [t w]. simpl in *. now rewrite IH. Qed.
Lemma alphanumeric_first s : fst (alphanumeric true true s) = match s with [] => [] | c :: s' => fold_case c :: s' end.
Proof.
  destruct s as [|c s]; simpl; [reflexivity|]. pose proof (alphanumeric_lower s) as H. destruct (alphanumeric false true s) as [t w]. simpl in *.
  now rewrite H.
Qed.
Lemma after_slash_plain s : (forall c, In c s -> c <> 47 /\ c <> 92) -> after_last_slash s = None.
Proof.
  induction s as [|c s IH]; intros H; simpl; [reflexivity|]. rewrite IH by (intros; apply H; now right).
  destruct (H c (or_introl eq_refl)). now replace ((c =? 47) || (c =? 92)) with false by lia.
Qed.
Lemma after_slash_last a x s : (x = 47 \/ x = 92) -> (forall c, In c s -> c <> 47 /\ c <> 92) -> after_last_slash (a ++ x :: s) = Some s.
Proof.
  intros Hx H. induction a as [|c a IH]; simpl.
  - rewrite after_slash_plain by exact H. now replace ((x =? 47) || (x =? 92)) with true by lia.
  - now rewrite IH.
Qed.

Theorem c28_stored_name_partial : forall dir sep nm, (forall c, In c nm -> c <> 47 /\ c <> 92) -> (sep = 47 \/ sep = 92) -> dir <> [] -> nm <> [] ->
  (forall calc, In calc [TYPE_73P; TYPE_83P; TYPE_8XP] -> prgm_name calc nm = upper nm /\ prgm_name calc (dir ++ sep :: nm) = upper nm) /\
  (forall calc, In calc [TYPE_85P; TYPE_86P; TYPE_85S; TYPE_86S] -> prgm_name calc nm = nm /\ prgm_name calc (dir ++ sep :: nm) = nm) /\
  prgm_name TYPE_8XV nm = upper (firstn 1 nm) ++ skipn 1 nm /\
  prgm_name TYPE_8XV (dir ++ sep :: nm) = upper (firstn 1 nm) ++ skipn 1 nm.
Proof.
  intros dir sep nm Hn Hs Hd Hm.
  assert (B1 : base_name nm = nm).
  { unfold base_name. rewrite after_slash_plain; [reflexivity|]. intros c Hc. apply Hn. destruct nm; [contradiction|now right]. }
  assert (B2 : base_name (dir ++ sep :: nm) = nm).
  { unfold base_name. destruct dir as [|c dir]; [congruence|]. cbn [app tl]. now rewrite (after_slash_last dir sep nm). }
  split; [|split; [|split]].
  - intros calc Hc. cbn [In] in Hc. unfold prgm_name. rewrite B1, B2. destruct Hc as [<-|[<-|[<-|[]]]]; cbn [is_82P before_85P is_8XV];
      now rewrite alphanumeric_upper.
  - intros calc Hc. cbn [In] in Hc. unfold prgm_name. rewrite B1, B2. destruct Hc as [<-|[<-|[<-|[<-|[]]]]]; auto.
  - unfold prgm_name. rewrite B1. cbn [is_82P before_85P is_8XV]. rewrite alphanumeric_first. destruct nm; reflexivity.
  - unfold prgm_name. rewrite B2. cbn [is_82P before_85P is_8XV]. rewrite alphanumeric_first. destruct nm; reflexivity.
Qed.
(** For a file in the root directory the slash is kept in the name. *)
Theorem c28_stored_name_refuted : prgm_name TYPE_8XP (zs "/hello") = zs "/HELLO".
Proof. reflexivity. Qed.
(** A .83p program is stored as hexadecimal digits. *)
Theorem c28_hex_body : forall data, bytes data ->
  exists digits, prgm_body TYPE_83P data = digits ++ [63; 212; 63; 48; 48; 48; 48; 63; 212] /\ hexpairs digits = (data, []).
Proof.
  intros data Hb. exists (flat_map (fun b => hexw 2 b) data). split; [reflexivity|].
  assert (E : flat_map (fun b => hexw 2 b) data = hexs data).
  { clear -Hb. induction Hb as [|b l Hb _ IH]; [reflexivity|]. cbn [flat_map hexs]. unfold is_byte in Hb. rewrite hexw_2 by lia. now rewrite IH. }
  rewrite E, <- (app_nil_r (hexs data)). apply hexpairs_hexs; [exact Hb|]. now left.
Qed.
Example c28_read_case : read_var false (makeprgm_bytes TYPE_8XP (zs "dir/hello") [187; 109; 201]) = Some (mkvar 6 (zs "HELLO") [187; 109; 201]).
Proof. reflexivity. Qed.
Example c28_read_86 : read_var true (makeprgm_bytes TYPE_86P (zs "Hello") [201]) = Some (mkvar 18 (zs "Hello") [142; 40; 201]).
Proof. reflexivity. Qed.

(** * C29 *)
(** The header is a list of fields after the length field; [code] follows it.  The result is
    refused with the right error, or has its length and pages fields filled in. *)
Lemma bytes_app_inv a b : bytes (a ++ b) -> bytes a /\ bytes b.
Proof. apply Forall_app. Qed.
Lemma bytes_app_intro a b : bytes a -> bytes b -> bytes (a ++ b).
Proof. intros. apply Forall_app. auto. Qed.
Lemma be32_bytes z : bytes (be32 z).
Proof. unfold be32. repeat constructor; unfold is_byte; lia. Qed.
Lemma update_bytes v fs : is_byte v -> bytes (fields_bytes fs) -> bytes (fields_bytes (update_first is_pages [v] fs)).
Proof.
  intros Hv. induction fs as [|f fs IH]; intros Hb; [exact Hb|]. rewrite fields_cons in Hb. cbn [update_first].
  inversion Hb as [|? ? B1 Hb1]; subst. inversion Hb1 as [|? ? B2 Hb2]; subst. apply bytes_app_inv in Hb2. destruct Hb2 as (B3 & B4).
  destruct (is_pages f); rewrite fields_cons; cbn [fl_id fl_content]; constructor; auto; constructor; auto; apply bytes_app_intro; auto.
  constructor; auto.
Qed.

(** What an application file must be: the header with the name, the length of the text and the
    text, which loads the signed program. *)
Definition app_file_ok (nm signed file : list Z) : Prop :=
  exists text, file = zs "**TIFL**" ++ [1; 1; 1; 136; 1; 1; 25; 151] ++ [zlen nm] ++ nm ++ repeat 0 (8 - length nm) ++
      repeat 0 23 ++ [115; 36] ++ repeat 0 24 ++ le32 (zlen text) ++ text /\
    decode_hex true text = Some (image signed).

Lemma makeapp_shape md5 l4 fs code s : let data := app_bytes l4 fs code in
  length l4 = 4%nat -> Forall field_ok fs -> nth 0 code 0 <> 128 -> zlen data < 4294967296 ->
  exists e, makeapp md5 data s =
    match app_spec fs code (zlen data) with
    | inl r => Ok [] (set_errs (mkerr (refusal_code r) (s_sess s) false (s_line s) (s_file s) :: e) s)
    | inr (prog, pages, nm) => Ok (app_file md5 prog pages nm) (set_errs e s)
    end.
Proof.
  intros data H4 Ho Hc Hs. pose proof (app_fields_spec l4 fs code H4 Ho Hc Hs) as A. cbv zeta in A. fold data in A.
  unfold makeapp. cbv zeta. rewrite A.
  assert (W : forall b code, exists e, whenM b (set_warning code) s = Ok tt (set_errs e s)).
  { intros b cd. destruct b; [eexists; reflexivity|]. exists (s_errs s). cbn [whenM]. destruct s; reflexivity. }
  destruct (app_spec fs code (zlen data)) as [r|[[prog pages] nm]].
  - edestruct W as (e & We). exists e. rewrite (bind_ok _ _ _ _ _ We). destruct s; reflexivity.
  - edestruct W as (e & We). exists e. rewrite (bind_ok _ _ _ _ _ We). reflexivity.
Qed.

Lemma app_length_field prog pages nm md5 : bytes prog -> zlen prog + 96 <= 16384 * 65536 ->
  exists text, app_file md5 prog pages nm = zs "**TIFL**" ++ [1; 1; 1; 136; 1; 1; 25; 151] ++ [zlen nm] ++ nm ++ repeat 0 (8 - length nm) ++
      repeat 0 23 ++ [115; 36] ++ repeat 0 24 ++ le32 (zlen text + 17 * (pages - ceil_div (zlen prog + 96) 16384)) ++ text /\
    text = intelhex (prog ++ sig_block (md5 prog)).
Proof.
  intros Hb Hl. destruct (sig_block_ok (md5 prog)) as (L & B). exists (intelhex (prog ++ sig_block (md5 prog))). split; [|reflexivity].
  assert (El : zlen (prog ++ sig_block (md5 prog)) = zlen prog + 96) by (unfold zlen; rewrite app_length, L; lia).
  unfold app_file. cbv zeta. rewrite intelhex_length by (try apply bytes_app_intro; auto; rewrite El; exact Hl). rewrite El, le4_le32.
  unfold header8xk. rewrite <- !app_assoc.
  replace (77 * Z.shiftr (zlen prog + 96) 5 + pages * 17 + 11 + (if Z.land (zlen prog + 96) 31 =? 0 then 0 else Z.land (zlen prog + 96) 31 * 2 + 13))
    with (17 * ceil_div (zlen prog + 96) 16384 + records_size (zlen prog + 96) + 11 + 17 * (pages - ceil_div (zlen prog + 96) 16384)); [reflexivity|].
  unfold records_size. change 31 with (Z.ones 5). rewrite Z.land_ones, Z.shiftr_div_pow2 by lia. change (2 ^ 5) with 32.
  destruct ((zlen prog + 96) mod 32 =? 0); lia.
Qed.

Lemma app_good_facts fs code l4 prog pages nm : let data := app_bytes l4 fs code in
  length l4 = 4%nat -> Forall field_ok fs -> bytes data -> app_spec fs code (zlen data) = inr (prog, pages, nm) ->
  bytes prog /\ zlen prog = zlen data /\ pages = ceil_div (zlen data) 16384 /\ no_room (zlen data) = false.
Proof.
  intros data H4 Ho Hb. unfold app_spec. destruct (no_room (zlen data)); [discriminate|].
  destruct (find is_type fs); [|discriminate]. destruct (eqbl _ _); [|discriminate].
  destruct (find is_pages fs) as [g|] eqn:Eg; [|discriminate]. destruct (find is_name fs); [|discriminate].
  intros E. injection E as <- <- _. unfold data, app_bytes in Hb.
  apply bytes_app_inv in Hb as (B1 & Hb). apply bytes_app_inv in Hb as (B2 & Hb). apply bytes_app_inv in Hb as (B3 & B4).
  split; [|split; [|split; reflexivity]].
  - repeat apply bytes_app_intro; auto. + apply be32_bytes. + apply update_bytes; [unfold is_byte; lia|assumption].
  - unfold data, app_bytes, zlen. rewrite !app_length, H4. do 3 f_equal.
    destruct (find_first _ _ _ Eg) as (a & b & -> & Hp & Ha). rewrite update_skip by exact Ha. cbn [update_first]. rewrite Hp.
    rewrite !fields_app, !fields_cons. cbn [fl_content]. unfold is_pages in Hp. apply Z.eqb_eq in Hp.
    apply Forall_app in Ho as (_ & Ho). inversion Ho as [|? ? (Hi & Hk) _]; subst. rewrite Hp in Hk. change (129 mod 16) with 1 in Hk.
    rewrite !app_length. cbn [length]. rewrite !app_length. cbn [length]. lia.
Qed.

Theorem c29_app_file_partial : forall md5 l4 fs code s, let data := app_bytes l4 fs code in
  length l4 = 4%nat -> Forall field_ok fs -> bytes data -> nth 0 code 0 <> 128 -> zlen data <= 255 * 16384 ->
  ~ (16288 < zlen data <= 16384) ->
  exists out e, makeapp md5 data s = Ok out (set_errs e s) /\
  match app_spec fs code (zlen data) with
  | inl r => out = [] /\ exists x e', e = x :: e' /\ e_code x = refusal_code r
  | inr (prog, pages, nm) =>
      exists sig, length sig = 96%nat /\ app_file_ok nm (prog ++ sig) out /\
      zlen prog = zlen data /\ pages = ceil_div (zlen (prog ++ sig)) 16384 /\ sig = sig_block (md5 prog)
  end.
Proof.
  intros md5 l4 fs code s data H4 Ho Hb Hc Hs Hz.
  destruct (makeapp_shape md5 l4 fs code s H4 Ho Hc ltac:(fold data; lia)) as (e & E). fold data in E.
  pose proof (app_good_facts fs code l4) as G. cbv zeta in G. fold data in G.
  destruct (app_spec fs code (zlen data)) as [r|[[prog pages] nm]].
  - rewrite E. eexists _, _. split; [reflexivity|]. split; [reflexivity|]. eexists _, _. split; reflexivity.
  - destruct (G prog pages nm H4 Ho Hb eq_refl) as (B & L & P & N). exists (app_file md5 prog pages nm), e. split; [exact E|].
    destruct (sig_block_ok (md5 prog)) as (LS & BS). exists (sig_block (md5 prog)).
    assert (Hpages : pages = ceil_div (zlen prog + 96) 16384).
    { rewrite P, L. unfold no_room in N. unfold ceil_div. assert (0 <= zlen data) by (unfold zlen; lia).
      assert (zlen data <> 0) by (unfold data, app_bytes, zlen; cbn [app length]; lia). lia. }
    split; [exact LS|]. split; [|split; [exact L|split; [|reflexivity]]].
    + destruct (app_length_field prog pages nm md5 B ltac:(lia)) as (text & Et & Ex). exists text. split.
      * rewrite Et. rewrite <- Hpages. replace (zlen text + 17 * (pages - pages)) with (zlen text) by lia. reflexivity.
      * rewrite Ex. apply ihex_checked_ok; [apply bytes_app_intro; auto|]. unfold zlen in *. rewrite app_length, LS. lia.
    + rewrite Hpages. f_equal. unfold zlen. rewrite app_length, LS. lia.
Qed.
(** A one-page program of 16289 to 16384 bytes is accepted, but the signature lies on a second
    page that is not counted: the page count is 1 and the length field 17 too small. *)
Theorem c29_app_file_refuted : forall md5 l4 fs code s prog pages nm, let data := app_bytes l4 fs code in
  length l4 = 4%nat -> Forall field_ok fs -> bytes data -> nth 0 code 0 <> 128 -> 16288 < zlen data <= 16384 ->
  app_spec fs code (zlen data) = inr (prog, pages, nm) ->
  exists out e sig, makeapp md5 data s = Ok out (set_errs e s) /\ length sig = 96%nat /\
    pages = 1 /\ ceil_div (zlen (prog ++ sig)) 16384 = 2 /\
    exists pre text, length pre = (66 + Nat.max 8 (length nm))%nat /\ out = pre ++ le32 (zlen text - 17) ++ text /\ decode_hex true text = Some (image (prog ++ sig)).
Proof.
  intros md5 l4 fs code s prog pages nm data H4 Ho Hb Hc Hs Ha.
  destruct (makeapp_shape md5 l4 fs code s H4 Ho Hc ltac:(fold data; lia)) as (e & E). fold data in E. rewrite Ha in E.
  destruct (app_good_facts fs code l4 prog pages nm H4 Ho Hb Ha) as (B & L & P & N). fold data in L, P, N.
  destruct (sig_block_ok (md5 prog)) as (LS & BS). exists (app_file md5 prog pages nm), e, (sig_block (md5 prog)).
  split; [exact E|]. split; [exact LS|]. unfold ceil_div in P. split; [lia|]. split; [unfold ceil_div, zlen in *; rewrite app_length, LS; lia|].
  destruct (app_length_field prog pages nm md5 B ltac:(lia)) as (text & Et & Ex).
  eexists (zs "**TIFL**" ++ [1; 1; 1; 136; 1; 1; 25; 151] ++ [zlen nm] ++ nm ++ repeat 0 (8 - length nm) ++
      repeat 0 23 ++ [115; 36] ++ repeat 0 24), text. split; [|split].
  - rewrite !app_length, !repeat_length. cbn [length]. change (length (zs "**TIFL**")) with 8%nat. lia.
  - rewrite Et, <- !app_assoc. do 8 f_equal. f_equal. unfold ceil_div. f_equal. lia.
  - rewrite Ex. apply ihex_checked_ok; [apply bytes_app_intro; auto|]. unfold zlen in *. rewrite app_length, LS. lia.
Qed.
(** A header with all three fields. *)
Definition demo_fields : list field := [mkfield 18 [1; 4]; mkfield 72 (zs "Demo App"); mkfield 129 [0]].
Example c29_case : let data := app_bytes [0; 0; 0; 0] demo_fields [112; 1; 2; 3] in
  Forall field_ok demo_fields /\ bytes data /\
  app_spec demo_fields [112; 1; 2; 3] (zlen data) =
  inr (app_bytes [0; 0; 0; 21] [mkfield 18 [1; 4]; mkfield 72 (zs "Demo App"); mkfield 129 [1]] [112; 1; 2; 3], 1, zs "Demo App").
Proof.
  cbv zeta. split; [|split].
  - repeat constructor; cbn; lia.
  - vm_compute. repeat constructor; discriminate.
  - reflexivity.
Qed.
Example c29_refuted_case : let code := 112 :: repeat 0 (Z.to_nat 16300) in
  nth 0 code 0 <> 128 /\ 16288 < zlen (app_bytes [0; 0; 0; 0] demo_fields code) <= 16384 /\
  exists x, app_spec demo_fields code (zlen (app_bytes [0; 0; 0; 0] demo_fields code)) = inr x.
Proof. cbv zeta. split; [discriminate|]. split; [unfold app_bytes, zlen; rewrite !app_length; cbn [length]; rewrite repeat_length; cbn; lia|]. eexists. vm_compute. reflexivity. Qed.

(** * C31 *)
Lemma fold_tolower x y : (fold_case x =? fold_case y) = (tolower x =? tolower y).
Proof. unfold fold_case, tolower, isupper. repeat match goal with |- context [if ?b then _ else _] => destruct b eqn:? end; lia. Qed.
Lemma same_letters_ci a : forall b, same_letters a b = eqbl_ci a b.
Proof. induction a as [|x a IH]; destruct b as [|y b]; simpl; try reflexivity. now rewrite fold_tolower, IH. Qed.
Lemma ci_r a : forall b b', map tolower b = map tolower b' -> eqbl_ci a b = eqbl_ci a b'.
Proof.
  induction a as [|x a IH]; destruct b as [|y b], b' as [|z b']; simpl; intros H; try discriminate; try reflexivity.
  injection H as H1 H2. now rewrite H1, (IH b b' H2).
Qed.

Definition exporter_calc (x : exporter) : calc_type :=
  match x with
  | ExBinary => TYPE_BIN | ExRom => TYPE_ROM | ExHex => TYPE_HEX | ExApp => TYPE_8XK
  | ExVariable k => nth k [TYPE_73P; TYPE_82P; TYPE_83P; TYPE_8XP; TYPE_8XV; TYPE_85P; TYPE_86P; TYPE_85S; TYPE_86S] TYPE_BIN
  end.
Lemma find_ext_spec ext : find_ext ext extensions = option_map exporter_calc (exporter_of ext formats).
Proof.
  unfold extensions, formats. cbn [find_ext exporter_of]. rewrite !same_letters_ci.
  rewrite (ci_r ext (zs "73p") (zs "73P") eq_refl), (ci_r ext (zs "82p") (zs "82P") eq_refl), (ci_r ext (zs "83p") (zs "83P") eq_refl),
    (ci_r ext (zs "8xp") (zs "8XP") eq_refl), (ci_r ext (zs "8xv") (zs "8XV") eq_refl), (ci_r ext (zs "85p") (zs "85P") eq_refl),
    (ci_r ext (zs "86p") (zs "86P") eq_refl), (ci_r ext (zs "85s") (zs "85S") eq_refl), (ci_r ext (zs "86s") (zs "86S") eq_refl),
    (ci_r ext (zs "8xk") (zs "8XK") eq_refl), (ci_r ext (zs "rom") (zs "ROM") eq_refl), (ci_r ext (zs "hex") (zs "HEX") eq_refl),
    (ci_r ext (zs "bin") (zs "BIN") eq_refl).
  assert (X : forall a b, eqbl_ci ext a = true -> eqbl_ci ext b = true -> map tolower a = map tolower b).
  { intros a. revert ext. induction a as [|x a IH]; intros [|y e] [|z b]; simpl; try discriminate; auto. intros H1 H2.
    apply andb_true_iff in H1 as (H1 & H1'), H2 as (H2 & H2'). f_equal; [lia|eauto]. }
  repeat match goal with |- context [eqbl_ci ext ?t] => let E := fresh "E" in destruct (eqbl_ci ext t) eqn:E end; try reflexivity;
  match goal with H1 : eqbl_ci ext ?a = true, H2 : eqbl_ci ext ?b = true |- _ => pose proof (X _ _ H1 H2) as Q; vm_compute in Q; discriminate end.
Qed.

Lemma after_last_spec c a t : ~ In c t -> after_last c (a ++ c :: t) = Some t.
Proof.
  intros H. assert (N : after_last c t = None).
  { clear -H. induction t as [|x t IH]; simpl; [reflexivity|]. rewrite IH by (intros K; apply H; now right).
    replace (x =? c) with false; [reflexivity|]. symmetry. apply Z.eqb_neq. intros ->. apply H. now left. }
  induction a as [|x a IH]; simpl; [rewrite N, Z.eqb_refl; reflexivity|]. now rewrite IH.
Qed.
Lemma after_last_none c t : ~ In c t -> after_last c t = None.
Proof.
  intros H. induction t as [|x t IH]; simpl; [reflexivity|]. rewrite IH by (intros K; apply H; now right).
  replace (x =? c) with false; [reflexivity|]. symmetry. apply Z.eqb_neq. intros ->. apply H. now left.
Qed.
Lemma before_last_at c a t : ~ In c t -> before_last c (a ++ c :: t) = Some a.
Proof.
  intros H. pose proof (before_last_spec c (a ++ c :: t)) as B. destruct (before_last c (a ++ c :: t)) as [r|].
  - destruct B as (t' & E & Ht'). f_equal. clear -E H Ht'. revert a E. induction r as [|x r IH]; intros [|y a] E; simpl in E.
    + reflexivity. + injection E as -> E. exfalso. apply Ht'. rewrite <- E. apply in_elt.
    + injection E as -> E. exfalso. apply H. rewrite E. apply in_elt. + injection E as -> E. f_equal. now apply IH.
  - exfalso. apply B. apply in_elt.
Qed.

(** What the file contains when it is asked for in a given format. *)
Definition exported (C : cfg) (x : exporter) (stem : text) (data : list Z) (out : list Z) : Prop :=
  match x with
  | ExBinary => out = data
  | ExRom => out = makerom data
  | ExHex => out = intelhex data
  | ExApp => exists s0 s1, makeapp (c_md5 C) data s0 = Ok out s1
  | ExVariable k => out = makeprgm_bytes (exporter_calc x) stem data
  end.
Lemma makeapp_ok md5 data s : exists out e, makeapp md5 data s = Ok out (set_errs e s).
Proof.
  assert (W : forall b code, exists e, whenM b (set_warning code) s = Ok tt (set_errs e s)).
  { intros b cd. destruct b; [eexists; reflexivity|]. exists (s_errs s). cbn [whenM]. destruct s; reflexivity. }
  unfold makeapp. cbv zeta. destruct (app_fields data) as [r|[[prog pages] nm]].
  - edestruct W as (e & We). rewrite (bind_ok _ _ _ _ _ We). eexists _, _. destruct s; reflexivity.
  - edestruct W as (e & We). rewrite (bind_ok _ _ _ _ _ We). eexists _, _. reflexivity.
Qed.
Lemma makeprgm_warn_ok ez calc nm data s : exists e x, makeprgm_warnings ez calc nm data s = Ok tt (set_exitc x (set_errs e s)).
Proof.
  assert (W1 : forall b s, exists e x, whenM b show_warning s = Ok tt (set_exitc x (set_errs e s))).
  { intros b s0. destruct b, s0; eexists _, _; reflexivity. }
  assert (W2 : forall b c s, exists e x, whenM b (set_warning c) s = Ok tt (set_exitc x (set_errs e s))).
  { intros b c s0. destruct b; [exists (mkerr c (s_sess s0) true (s_line s0) (s_file s0) :: s_errs s0), (s_exitc s0)|exists (s_errs s0), (s_exitc s0)]; destruct s0; reflexivity. }
  assert (SS : forall s0 e x e' x', set_exitc x' (set_errs e' (set_exitc x (set_errs e s0))) = set_exitc x' (set_errs e' s0)) by (intros []; reflexivity).
  unfold makeprgm_warnings. cbv zeta.
  edestruct W1 as (e1 & x1 & H1). rewrite (bind_ok _ _ _ _ _ H1).
  match goal with |- exists _ _, bind (whenM ?b ?m) _ ?s1 = _ => assert (H2 : exists e x, whenM b m s1 = Ok tt (set_exitc x (set_errs e s1))) end.
  { match goal with |- exists _ _, whenM ?b _ ?s1 = _ => destruct b; [|exists (s_errs s1), (s_exitc s1); destruct s; reflexivity] end.
    cbn [whenM]. match goal with |- exists _ _, (if ?b then _ else _) _ = _ => destruct b end; [apply (W2 true)|apply W2]. }
  destruct H2 as (e2 & x2 & H2). rewrite (bind_ok _ _ _ _ _ H2).
  edestruct W1 as (e3 & x3 & H3). rewrite (bind_ok _ _ _ _ _ H3).
  edestruct W1 as (e4 & x4 & H4). rewrite H4. rewrite !SS. eexists _, _. reflexivity.
Qed.

Theorem c31_format_by_extension : forall C mem len stem ext s, 0 <= len <= OUTPUT_BUF_SIZE -> len <= zlen mem ->
  stem <> [] -> ~ In 46 ext ->
  let name := stem ++ 46 :: ext in
  exists s' out, write_file C mem len name s = Ok tt s' /\ s_outfiles s' = (name, out) :: s_outfiles s /\
  match exporter_of ext formats with
  | Some x => exported C x stem (firstn (Z.to_nat len) mem) out
  | None => out = firstn (Z.to_nat len) mem /\ exists e, s_errs s' = e :: s_errs s /\ e_code e = SPASM_WARN_UNKNOWN_EXTENSION /\ e_warn e = true
  end.
Proof.
  intros C mem len stem ext s Hl Hm Hs He name. unfold write_file.
  assert (E1 : file_ext name = Some ext).
  { unfold file_ext, name. destruct stem as [|c stem]; [congruence|]. cbn [app tl]. now apply after_last_spec. }
  assert (E2 : file_stem name = stem).
  { unfold file_stem, name. destruct stem as [|c stem]; [congruence|]. cbn [app]. now rewrite before_last_at. }
  assert (E3 : image_of mem len = firstn (Z.to_nat len) mem).
  { unfold image_of. replace (Z.to_nat len - length mem)%nat with O by (unfold zlen in Hm; lia). simpl. now rewrite app_nil_r. }
  rewrite E1, E2, E3, find_ext_spec. rewrite !bind_upd.
  replace (OUTPUT_BUF_SIZE <? len) with false by lia. replace (len <? 0) with false by lia.
  destruct (exporter_of ext formats) as [x|] eqn:X; cbn [option_map].
  - rewrite bind_ret.
    assert (HV : forall calc, is_var calc = true -> forall s1, exists e xc, bind (makeprgm_warnings (c_ez80 C) calc stem (firstn (Z.to_nat len) mem))
        (fun _ => ret (makeprgm_bytes calc stem (firstn (Z.to_nat len) mem))) s1 = Ok (makeprgm_bytes calc stem (firstn (Z.to_nat len) mem)) (set_exitc xc (set_errs e s1))).
    { intros calc _ s1. destruct (makeprgm_warn_ok (c_ez80 C) calc stem (firstn (Z.to_nat len) mem) s1) as (e & xc & H). exists e, xc. now rewrite (bind_ok _ _ _ _ _ H). }
    assert (R : x = ExBinary \/ x = ExRom \/ x = ExHex \/ x = ExApp \/ exists k, x = ExVariable k /\ (k < 9)%nat).
    { revert X. unfold formats. cbn [exporter_of]. repeat match goal with |- context [if ?b then _ else _] => destruct b; [intros K; injection K as <-; intuition eauto 10 with arith|] end.
      all: try (discriminate). all: repeat right. all: eexists; split; [reflexivity|lia]. }
    destruct R as [->|[->|[->|[->|(k & -> & Hk)]]]].
    + eexists _, _. split; [reflexivity|]. split; [destruct s; reflexivity|]. reflexivity.
    + eexists _, _. split; [reflexivity|]. split; [destruct s; reflexivity|]. reflexivity.
    + eexists _, _. split; [reflexivity|]. split; [destruct s; reflexivity|]. reflexivity.
    + cbn [exporter_calc]. destruct (makeapp_ok (c_md5 C) (firstn (Z.to_nat len) mem) (set_line (-1) (set_file (zs "exporter") s))) as (out & e & H).
      rewrite (bind_ok _ _ _ _ _ H). eexists _, out. split; [reflexivity|]. split; [destruct s; reflexivity|]. eexists _, _. exact H.
    + assert (Q : is_var (exporter_calc (ExVariable k)) = true) by (do 9 (destruct k as [|k]; [reflexivity|]); lia).
      set (calc := exporter_calc (ExVariable k)) in *.
      destruct (HV calc Q (set_line (-1) (set_file (zs "exporter") s))) as (e & xc & H).
      set (S1 := set_exitc xc (set_errs e (set_line (-1) (set_file (zs "exporter") s)))) in *.
      exists (set_file [] (set_outfiles ((name, makeprgm_bytes calc stem (firstn (Z.to_nat len) mem)) :: s_outfiles S1) S1)),
        (makeprgm_bytes calc stem (firstn (Z.to_nat len) mem)).
      split; [|split; [|reflexivity]].
      * destruct calc; try discriminate; rewrite (bind_ok _ _ _ _ _ H); reflexivity.
      * destruct s; reflexivity.
  - eexists _, _. split; [reflexivity|]. split; [destruct s; reflexivity|]. split; [reflexivity|].
    eexists. split; [destruct s; reflexivity|]. split; reflexivity.
Qed.
(** A name without a dot after its first character gives a binary. *)
Theorem c31_no_extension : forall C mem len c name s, 0 <= len <= OUTPUT_BUF_SIZE -> len <= zlen mem -> ~ In 46 name ->
  exists s', write_file C mem len (c :: name) s = Ok tt s' /\ s_outfiles s' = (c :: name, firstn (Z.to_nat len) mem) :: s_outfiles s.
Proof.
  intros C mem len c name s Hl Hm Hn. unfold write_file.
  assert (E3 : image_of mem len = firstn (Z.to_nat len) mem).
  { unfold image_of. replace (Z.to_nat len - length mem)%nat with O by (unfold zlen in Hm; lia). simpl. now rewrite app_nil_r. }
  unfold file_ext. cbn [tl]. rewrite after_last_none by exact Hn. rewrite E3, !bind_upd, bind_ret.
  replace (OUTPUT_BUF_SIZE <? len) with false by lia. eexists. split; [reflexivity|]. destruct s; reflexivity.
Qed.
Example c31_case : exporter_of (zs "8Xp") formats = Some (ExVariable 3) /\ exporter_of (zs "z80") formats = None.
Proof. split; reflexivity. Qed.

Print Assumptions c27_rom_image.
Print Assumptions c28_checksum.
Print Assumptions c28_variable_files_partial.
Print Assumptions c28_variable_files_refuted.
Print Assumptions c28_read_back.
Print Assumptions c28_stored_name_partial.
Print Assumptions c28_hex_body.
Print Assumptions c29_app_file_partial.
Print Assumptions c29_app_file_refuted.
Print Assumptions c31_format_by_extension.
Print Assumptions c31_no_extension.
