(** Instructions added by the program (C44). *)
From Verif Require Import Base BaseProofs State UtilsModel ErrorsModel StorageModel ParserModel PassTwoModel PreopModel PassOneModel DirectiveModel OpcodeTables
  Knot MainModel MonadProofs UtilsSpec UtilsProofs PassTwoSpec PassTwoProofs ParserSpec ParserProofs ParserProps InstrSpec InstrProofs InstrProps MatchSpec MatchProofs MatchProps AsmExpand
  EvalSpec EvalProofs Validate Programs DefineProofs SubstProps.

(** ** What a declaration says *)
(** The bytes written by pairs of hexadecimal digits. *)
Fixpoint hex_bytes (ds : text) : list Z :=
  match ds with a :: b :: r => numeral 16 [a; b] :: hex_bytes r | _ => [] end.
(** The form of the operands: each * is a two-byte operand if two bytes are left for it, otherwise a
    one-byte operand; two bytes are counted for it in any case. *)
Fixpoint forms (left : Z) (args : text) : text :=
  match args with
  | [] => []
  | c :: r => if c =? ch "*" then (if left =? 2 then ch "*" else ch "&") :: forms (left - 2) r else c :: forms left r
  end.
Definition count (e : option Z) : Z := match e with Some _ => 1 | None => 0 end.
Definition declared (args ds : text) (size : Z) (e : option Z) : instr :=
  mkinstr (forms (size - zlen (hex_bytes ds) - count e) args) (hex_bytes ds) (zlen (hex_bytes ds)) 0 0
    (match e with Some _ => true | None => false end) (match e with Some v => v | None => 0 end) size 0.

(** A word of the declaration: blanks, then text without blanks outside quotes and parentheses. *)
Definition word (o : UtilsSpec.operand) : Prop := operand_okd [32; 9] o /\ o_after o = [].
Definition spaced (p : text) : Prop := exists t, p = 32 :: t \/ p = 9 :: t.
Definition wordtext (o : UtilsSpec.operand) : text := o_before o ++ operand_text o.
Definition over (rest : text) : Prop := rest = [] \/ exists c t, rest = c :: t /\ (c = 10 \/ c = 13 \/ c = 59).
(** The operand form is written as it is, or in quotes. *)
Inductive form_text (args : text) : text -> Prop :=
  | form_plain : args <> [] -> form_text args args
  | form_quoted : form_text args (34 :: args ++ [34]).
Definition form_ok (args : text) : Prop := Forall (fun c => c <> 0 /\ c <> 34 /\ c <> 92) args.
(** The end byte is the third word after the size, in hexadecimal. *)
Inductive more_words : list UtilsSpec.operand -> option Z -> Prop :=
  | more_none : more_words [] None
  | more_one a : word a -> spaced (o_before a) -> more_words [a] None
  | more_two a b : word a -> spaced (o_before a) -> word b -> spaced (o_before b) -> more_words [a; b] None
  | more_three a b c x y : word a -> spaced (o_before a) -> word b -> spaced (o_before b) -> word c -> spaced (o_before c) ->
      operand_text c = [x; y] -> digit_of 16 x -> digit_of 16 y -> more_words [a; b; c] (Some (numeral 16 [x; y])).

(** ** Reading the words *)
Lemma over_stops rest : over rest -> stops_list rest.
Proof. intros [->|(c & t & -> & H)]; [now left|right]. exists c, t. split; [reflexivity|left]. unfold line_ender. lia. Qed.
Lemma over_eol rest : over rest -> is_eol rest = true.
Proof. intros [->|(c & t & -> & H)]; [reflexivity|]. apply is_eol_cons. unfold line_ender. lia. Qed.
Lemma over_ws rest : over rest -> skip_ws rest = rest.
Proof. intros [->|(c & t & -> & H)]; [reflexivity|]. apply skip_ws_nonblank. unfold UtilsSpec.blank. lia. Qed.
Lemma read_word o p s : word o -> spaced p \/ over p ->
  read_expr (wordtext o ++ p) [32; 9] s = Ok (mkrx true p (operand_text o) false) s.
Proof.
  intros (Ho & Ha) Hp. unfold read_expr, read_expr'.
  pose proof (read_operand_gen [32; 9] o p ltac:(simpl; lia) (or_introl Ha) Ho) as K. rewrite Ha in K. cbn [app] in K.
  unfold wordtext. rewrite <- app_assoc, K; [reflexivity|].
  destruct Hp as [(t & H)|H]; [left|right; now apply over_stops]. right. destruct H as [->| ->]; eexists _, _; (split; [reflexivity|simpl; lia]).
Qed.
Lemma read_none b p s : Forall UtilsSpec.blank b -> over p -> read_expr (b ++ p) [32; 9] s = Ok (mkrx false p [] false) s.
Proof.
  intros Hb Hp. unfold read_expr, read_expr', read_expr_gen. rewrite skip_ws_app by exact Hb. rewrite over_ws by exact Hp.
  rewrite (over_eol _ Hp). reflexivity.
Qed.
Lemma reduce_plain R args : form_ok args -> forall q s, reduce_body R args q s = Ok (args, q) s.
Proof.
  induction 1 as [|c args (H0 & H1 & H2) _ IH]; intros q s; [reflexivity|]. cbn [reduce_body].
  replace (c =? 92) with false by lia. replace (c =? 34) with false by lia. rewrite (bind_ok _ _ _ _ _ (IH q s)). reflexivity.
Qed.
Lemma reduce_app R a : form_ok a -> forall b q s r s', reduce_body R b q s = Ok r s' -> reduce_body R (a ++ b) q s = Ok (a ++ fst r, snd r) s'.
Proof.
  induction 1 as [|c args (H0 & H1 & H2) _ IH]; intros b q s [t q'] s' E; [exact E|]. cbn [app reduce_body].
  replace (c =? 92) with false by lia. replace (c =? 34) with false by lia. rewrite (bind_ok _ _ _ _ _ (IH _ _ _ _ _ E)). reflexivity.
Qed.
Lemma until_plain a b : form_ok a -> until_nul (a ++ b) = a ++ until_nul b.
Proof. induction 1 as [|c args (H0 & H1 & H2) _ IH]; [reflexivity|]. cbn. replace (c =? 0) with false by lia. now rewrite IH. Qed.
Lemma reduce_form R args t s : form_ok args -> form_text args t -> reduce_string R t s = Ok args s.
Proof.
  intros F T. unfold reduce_string. destruct T as [N|].
  - rewrite (bind_ok _ _ _ _ _ (reduce_plain R args F 0 s)). cbv iota. replace (until_nul args) with args.
    + reflexivity.
    + rewrite <- (app_nil_r args) at 2. rewrite until_plain by exact F. now rewrite app_nil_r.
  - cbn [reduce_body]. change (34 =? 92) with false. change (34 =? 34) with true. cbv iota.
    assert (E : reduce_body R [34] (0 + 1) s = Ok ([34], 2) s) by reflexivity.
    rewrite bind_assoc, (bind_ok _ _ _ _ _ (reduce_app R args F _ _ _ _ _ E)). cbn [fst snd]. rewrite bind_ret.
    cbn [until_nul]. change (34 =? 0) with false. cbv iota. rewrite until_plain by exact F. cbn [until_nul]. change (34 =? 0) with false. cbv iota.
    change (2 <=? 2) with true. cbn [hd0]. change (34 =? 34) with true. cbn [andb].
    change (34 :: args ++ [34]) with ((34 :: args) ++ [34]) at 1. rewrite last_last. change (34 =? 34) with true. cbv iota.
    cbn [tl]. now rewrite removelast_last.
Qed.
Lemma conv_hex_ok ds s : ds <> [] -> Forall (digit_of 16) ds -> conv_hex ds [] s = number_read (numeral 16 ds) s.
Proof.
  intros N F. pose proof (conv_ok 16 SPASM_ERR_INVALID_HEX_DIGIT ds [] s ltac:(lia) N F (or_introl eq_refl) ltac:(cbn; lia) ltac:(cbn; lia)) as K.
  rewrite app_nil_r in K. exact K.
Qed.

(** The bytes of the number are those written. *)
Lemma numeral_app b x : forall y, numeral b (x ++ y) = numeral b x * b ^ Z.of_nat (length y) + numeral b y.
Proof.
  intros y. induction y as [|c y IH] using rev_ind.
  - rewrite app_nil_r. cbn [length]. change (numeral b []) with 0. change (Z.of_nat 0) with 0. rewrite Z.pow_0_r. lia.
  - rewrite app_assoc, !numeral_snoc, IH, app_length. cbn [length]. rewrite Nat.add_1_r, Nat2Z.inj_succ, Z.pow_succ_r by lia. lia.
Qed.
Lemma digit_bound base c : digit_of base c -> exists d, digit_value c = Some d /\ 0 <= d < base.
Proof. intros (d & E & H). exists d. split; [exact E|]. unfold digit_value in E.
  repeat match type of E with (if ?b then _ else _) = _ => destruct b eqn:? end; try discriminate; injection E as <-; lia. Qed.
Lemma pair_bound a b : digit_of 16 a -> digit_of 16 b -> 0 <= numeral 16 [a; b] < 256.
Proof.
  intros A B. apply digit_bound in A as (x & Ea & Hx). apply digit_bound in B as (y & Eb & Hy).
  unfold numeral. cbn [fold_left]. rewrite Ea, Eb. lia.
Qed.

Lemma numeral_bound ds : Forall (digit_of 16) ds -> 0 <= numeral 16 ds < 16 ^ Z.of_nat (length ds).
Proof.
  induction ds as [|c ds IH] using rev_ind; intros F; [cbn; lia|].
  apply Forall_app in F as (F1 & F2). inversion F2; subst. apply digit_bound in H1 as (d & E & B). specialize (IH F1).
  rewrite numeral_snoc, E, app_length. cbn [length]. rewrite Nat.add_1_r, Nat2Z.inj_succ, Z.pow_succ_r by lia. lia.
Qed.
Definition byte_at (v : Z) (j : nat) : Z := v / 256 ^ Z.of_nat j mod 256.
Lemma hex_bytes_is : forall n ds, length ds = (2 * n)%nat -> Forall (digit_of 16) ds ->
  map (byte_at (numeral 16 ds)) (rev (seq 0 n)) = hex_bytes ds /\ length (hex_bytes ds) = n.
Proof.
  induction n as [|n IH]; intros ds L F; [destruct ds; [now split|discriminate]|].
  destruct ds as [|a [|b r]]; try discriminate; [cbn in L; lia|]. cbn [length] in L.
  inversion F as [|? ? A F1]; subst. inversion F1 as [|? ? B Fr]; subst.
  destruct (IH r ltac:(lia) Fr) as (E & El). cbn [hex_bytes length]. split; [|lia].
  rewrite seq_S, rev_app_distr. cbn [rev app map plus].
  pose proof (pair_bound a b A B) as Hp. pose proof (numeral_bound r Fr) as Hr.
  assert (Lr : 16 ^ Z.of_nat (length r) = 256 ^ Z.of_nat n).
  { replace (Z.of_nat (length r)) with (2 * Z.of_nat n) by lia. rewrite Z.pow_mul_r by lia. reflexivity. }
  rewrite Lr in Hr. change (a :: b :: r) with ([a; b] ++ r). rewrite numeral_app, Lr. set (x := numeral 16 [a; b]) in *. f_equal.
  - unfold byte_at. rewrite Z.div_add_l by lia. rewrite Z.div_small by lia. rewrite Z.mod_small; lia.
  - rewrite <- E. apply map_ext_in. intros j J. apply in_rev, in_seq in J. unfold byte_at.
    replace (256 ^ Z.of_nat n) with (256 ^ Z.of_nat (n - S j) * 256 * 256 ^ Z.of_nat j).
    + rewrite Z.mul_assoc, Z.div_add_l by lia.
      rewrite Z.add_comm, Z.mul_assoc. now rewrite Z.mod_add by lia.
    + rewrite <- Z.mul_assoc, <- Z.pow_succ_r, <- Z.pow_add_r by lia. f_equal. lia.
Qed.
Lemma data_is n ds : (1 <= n <= 4)%nat -> length ds = (2 * n)%nat -> Forall (digit_of 16) ds ->
  addinstr_data n (signed32 (numeral 16 ds)) = Some (hex_bytes ds).
Proof.
  intros Hn L F. unfold addinstr_data. replace (Nat.leb n 4) with true by (symmetry; apply Nat.leb_le; lia). f_equal.
  rewrite <- (proj1 (hex_bytes_is n ds L F)). apply map_ext_in. intros j J. apply in_rev, in_seq in J.
  change 255 with (Z.ones 8). rewrite Z.land_ones, Z.shiftr_div_pow2 by lia. unfold byte_at. change (2 ^ 8) with 256.
  replace (256 ^ Z.of_nat j) with (2 ^ (8 * Z.of_nat j)) by (rewrite Z.pow_mul_r by lia; reflexivity).
  set (v := numeral 16 ds). assert (D : exists k, signed32 v = v + k * 4294967296).
  { unfold signed32. pose proof (Z.div_mod v 4294967296 ltac:(lia)). destruct (_ <? _); [exists (- (v / 4294967296))|exists (- (v / 4294967296) - 1)]; lia. }
  destruct D as (k & ->). replace 4294967296 with (2 ^ (32 - 8 * Z.of_nat j - 8) * 256 * 2 ^ (8 * Z.of_nat j)).
  - rewrite Z.mul_assoc, Z.div_add by lia. rewrite Z.mul_assoc. now rewrite Z.mod_add by lia.
  - change 256 with (2 ^ 8). rewrite <- !Z.pow_add_r by lia. change 4294967296 with (2 ^ 32). f_equal. lia.
Qed.
Lemma forms_is he : forall args left, -4294967296 <= left - 2 * zlen args -> left <= 4294967296 ->
  forms (left - b2z he) args = addinstr_args (left mod SIZE_T) he args.
Proof.
  induction args as [|c r IH]; intros left L1 L2; [reflexivity|]. cbn [addinstr_args forms]. change (ch "*") with 42. change (ch "&") with 38.
  rewrite zlen_cons in L1. pose proof (zlen_nonneg r). destruct (c =? 42).
  - rewrite !Zminus_mod_idemp_l. f_equal.
    + replace ((left - b2z he) mod SIZE_T =? 2) with (left - b2z he =? 2); [reflexivity|].
      destruct (Z.leb_spec 0 (left - b2z he)).
      * now rewrite Z.mod_small by (unfold SIZE_T; destruct he; cbn [b2z] in *; lia).
      * replace ((left - b2z he) mod SIZE_T) with (left - b2z he + SIZE_T); [unfold SIZE_T; destruct he; cbn [b2z] in *; lia|].
        symmetry. rewrite <- (Z.mod_add _ 1) by (unfold SIZE_T; lia). rewrite Z.mul_1_l. apply Z.mod_small. unfold SIZE_T; destruct he; cbn [b2z] in *; lia.
    + rewrite <- IH by lia. f_equal. lia.
  - f_equal. apply IH; lia.
Qed.

(** ** The declaration *)
Lemma skip_end b rest : Forall UtilsSpec.blank b -> over rest -> skip_to_line_end (b ++ rest) = rest.
Proof.
  intros B H. assert (K : pieces_text (map PChar b) = b).
  { clear B. unfold pieces_text. induction b as [|c b IH]; [reflexivity|]. cbn. now rewrite IH. }
  rewrite <- K at 1. apply skip_line_end_pieces; [|exact H].
  apply Forall_map. eapply Forall_impl; [|exact B]. intros c Q. unfold UtilsSpec.blank in Q. cbn. lia.
Qed.
(** The line adds the row it declares, for that mnemonic, and nothing else happens. *)
Theorem c44_declaration : forall C n s name form digits sizes more args e size names ending b rest,
  word name -> word form -> spaced (o_before form) -> word digits -> spaced (o_before digits) -> word sizes -> spaced (o_before sizes) ->
  form_ok args -> form_text args (operand_text form) -> zlen args <= 254 ->
  Forall (digit_of 16) (operand_text digits) -> In (length (operand_text digits)) [2; 4; 6; 8]%nat ->
  writes e (operand_text sizes) -> nest e <= 19 -> nest e < Z.of_nat n -> (forall m, mentions m e -> resolves C s names m) ->
  value (c_wrap C) (s_pc s) names e = Val size -> is_int size -> -2147483644 <= size ->
  more_words more ending -> b = [] \/ (spaced b /\ Forall UtilsSpec.blank b) -> over rest ->
  dir_addinstr C (knot C n) (wordtext name ++ wordtext form ++ wordtext digits ++ wordtext sizes ++ flat_map wordtext more ++ b ++ rest) s =
  Ok rest (set_opcodes (insert_opcode (mkopcode (operand_text name) [declared args (operand_text digits) size ending]) (s_opcodes s))
    (set_depth 0 (set_fwd false s))).
Proof.
  intros C n s name form digits sizes more args e size names ending b rest W1 W2 S2 W3 S3 W4 S4 Fo Ft Fl Hd Hl He Hn Hf Hm Hv Bv Lv Hmore Hb Hr.
  assert (Bb : Forall UtilsSpec.blank b) by (destruct Hb as [->|(_ & H)]; [constructor|exact H]).
  assert (Hbr : spaced (b ++ rest) \/ over (b ++ rest)).
  { destruct Hb as [->|((t & H) & _)]; [right; exact Hr|left]. exists (t ++ rest). destruct H as [->| ->]; auto. }
  assert (Sp : forall o p, spaced (o_before o) -> spaced (wordtext o ++ p) \/ over (wordtext o ++ p)).
  { intros o p (t & H). left. unfold wordtext. destruct H as [-> | ->]; eexists; cbn [app]; auto. }
  unfold dir_addinstr.
  rewrite (bind_ok _ _ _ _ _ (read_word name _ s W1 (Sp form _ S2))). cbn [rx_ret rx_word rx_ptr negb].
  rewrite (bind_ok _ _ _ _ _ (read_word form _ s W2 (Sp digits _ S3))). cbn [rx_ret rx_word rx_ptr negb].
  rewrite (bind_ok _ _ _ _ _ (reduce_form (knot C n) args _ s Fo Ft)).
  rewrite (bind_ok _ _ _ _ _ (read_word digits _ s W3 (Sp sizes _ S4))). cbn [rx_ret rx_word rx_ptr negb].
  assert (Hk : exists k, (1 <= k <= 4)%nat /\ length (operand_text digits) = (2 * k)%nat).
  { destruct Hl as [<-|[<-|[<-|[<-|[]]]]]; [exists 1%nat|exists 2%nat|exists 3%nat|exists 4%nat]; split; lia. }
  destruct Hk as (k & Hk & El).
  assert (Hne : operand_text digits <> []) by (destruct (operand_text digits); [cbn in El; lia|discriminate]).
  pose proof (conv_hex_ok (operand_text digits) s Hne Hd) as Hc. unfold number_read in Hc.
  pose proof (numeral_bound _ Hd) as Hnb. rewrite El in Hnb.
  assert (Hpow : 16 ^ Z.of_nat (2 * k) <= 4294967296).
  { change 4294967296 with (16 ^ 8). apply Z.pow_le_mono_r; lia. }
  replace (numeral 16 (operand_text digits) <=? 4294967295) with true in Hc by lia.
  rewrite (bind_ok _ _ _ _ _ Hc). rewrite El. replace (Nat.div (2 * k) 2) with k by (rewrite Nat.mul_comm, Nat.div_mul; lia).
  replace (Nat.ltb 8 k) with false by (symmetry; apply Nat.ltb_ge; lia).
  destruct k as [|k]; [lia|]. set (k1 := S k) in *. rewrite (data_is k1 _ Hk El Hd). rewrite bind_ret.
  assert (H4 : spaced (flat_map wordtext more ++ b ++ rest) \/ over (flat_map wordtext more ++ b ++ rest)).
  { destruct Hmore; cbn [flat_map]; rewrite <- ?app_assoc; [exact Hbr| | |]; now apply Sp. }
  rewrite (bind_ok _ _ _ _ _ (read_word sizes _ s W4 H4)). cbn [rx_ret rx_word rx_ptr negb].
  pose proof (c01_left_to_right C n s names e (operand_text sizes) [] [] [] He (Forall_nil _) (Forall_nil _) (or_introl eq_refl) Hn Hf Hm) as H.
  rewrite !app_nil_r in H. cbn [app] in H. cbv zeta in H. rewrite Hv in H. rewrite (bind_ok _ _ _ _ _ H). cbv iota.
  set (s1 := set_depth 0 (set_fwd false s)).
  assert (Hlen : zlen (hex_bytes (operand_text digits)) = Z.of_nat k1) by (unfold zlen; now rewrite (proj2 (hex_bytes_is k1 _ El Hd))).
  assert (Hint : forall s, int_res C (size - Z.of_nat k1) s = Ok (size - Z.of_nat k1) s).
  { intros s0. unfold int_res. unfold is_int in Bv. replace (in_int (size - Z.of_nat k1)) with true by (unfold in_int, INT_MIN, INT_MAX; lia). reflexivity. }
  assert (Fin : forall he, addinstr_args ((size - Z.of_nat k1) mod SIZE_T) he args = forms (size - Z.of_nat k1 - b2z he) args).
  { intros he. symmetry. unfold is_int in Bv. pose proof (zlen_nonneg args). apply forms_is; lia. }
  unfold declared. rewrite Hlen.
  destruct Hmore as [|a Wa Sa|a a2 Wa Sa Wa2 Sa2|a a2 a3 x y Wa Sa Wa2 Sa2 Wa3 Sa3 Ec Dx Dy]; cbn [flat_map]; rewrite <- ?app_assoc; cbn [app].
  - rewrite (bind_ok _ _ _ _ _ (read_none b rest s1 Bb Hr)). cbn [rx_ptr].
    rewrite (bind_ok _ _ _ _ _ (read_none [] rest s1 (Forall_nil _) Hr)). cbn [rx_ptr].
    rewrite (bind_ok _ _ _ _ _ (read_none [] rest s1 (Forall_nil _) Hr)). cbn [rx_ptr rx_ret].
    rewrite bind_ret, (bind_ok _ _ _ _ _ (Hint s1)), bind_get, bind_upd. cbv iota. rewrite Fin.
    rewrite <- (skip_end [] rest (Forall_nil _) Hr) at 2. reflexivity.
  - rewrite (bind_ok _ _ _ _ _ (read_word a _ s1 Wa Hbr)). cbn [rx_ptr].
    rewrite (bind_ok _ _ _ _ _ (read_none b rest s1 Bb Hr)). cbn [rx_ptr].
    rewrite (bind_ok _ _ _ _ _ (read_none [] rest s1 (Forall_nil _) Hr)). cbn [rx_ptr rx_ret].
    rewrite bind_ret, (bind_ok _ _ _ _ _ (Hint s1)), bind_get, bind_upd. cbv iota. rewrite Fin.
    rewrite <- (skip_end [] rest (Forall_nil _) Hr) at 2. reflexivity.
  - rewrite (bind_ok _ _ _ _ _ (read_word a _ s1 Wa (Sp a2 _ Sa2))). cbn [rx_ptr].
    rewrite (bind_ok _ _ _ _ _ (read_word a2 _ s1 Wa2 Hbr)). cbn [rx_ptr].
    rewrite (bind_ok _ _ _ _ _ (read_none b rest s1 Bb Hr)). cbn [rx_ptr rx_ret].
    rewrite bind_ret, (bind_ok _ _ _ _ _ (Hint s1)), bind_get, bind_upd. cbv iota. rewrite Fin.
    rewrite <- (skip_end [] rest (Forall_nil _) Hr) at 2. reflexivity.
  - rewrite (bind_ok _ _ _ _ _ (read_word a _ s1 Wa (Sp a2 _ Sa2))). cbn [rx_ptr].
    rewrite (bind_ok _ _ _ _ _ (read_word a2 _ s1 Wa2 (Sp a3 _ Sa3))). cbn [rx_ptr].
    rewrite (bind_ok _ _ _ _ _ (read_word a3 _ s1 Wa3 Hbr)). cbn [rx_ptr rx_ret rx_word].
    rewrite Ec. pose proof (pair_bound x y Dx Dy) as Hp.
    pose proof (conv_hex_ok [x; y] s1 ltac:(discriminate) ltac:(repeat constructor; assumption)) as Hcx. unfold number_read in Hcx.
    replace (numeral 16 [x; y] <=? 4294967295) with true in Hcx by lia. rewrite bind_assoc, (bind_ok _ _ _ _ _ Hcx), bind_ret.
    rewrite (bind_ok _ _ _ _ _ (Hint s1)), bind_get, bind_upd. cbv iota. rewrite Fin.
    rewrite skip_end by assumption. unfold or0.
    replace (u8 (signed32 (numeral 16 [x; y]))) with (numeral 16 [x; y]); [reflexivity|].
    rewrite signed32_small by lia. unfold u8. now rewrite Z.mod_small by lia.
Qed.

(** ** Using it *)
Definition plain_names (l : list opcode) : Prop := Forall (fun o => Forall (fun c => isalnum c = true) (op_name o)) l.
Lemma find_inserted name r o : isalnum (hd0 r) = false -> eqbl_ci name (op_name o) = true -> forall ops, plain_names (o :: ops) ->
  find_opcode (name ++ r) (length name) (insert_opcode o ops) = o :: find_opcode (name ++ r) (length name) ops.
Proof.
  intros Hr Hn. induction ops as [|p l IH]; intros P; cbn [insert_opcode find_opcode].
  - now rewrite strncaseq_app.
  - inversion P as [|? ? P1 P2]; subst. inversion P2 as [|? ? P3 P4]; subst. destruct (eqbl_ci (op_name o) (op_name p)) eqn:E.
    + cbn [find_opcode]. rewrite strncaseq_app by exact Hn. replace (strncaseq _ _ (op_name p)) with true; [reflexivity|].
      symmetry. apply strncaseq_app. clear - E Hn. revert E Hn. generalize (op_name o) (op_name p). clear.
      induction name as [|x n IH]; intros [|y a] [|z b] H1 H2; try discriminate; [reflexivity|]. cbn [eqbl_ci] in *.
      apply andb_true_iff in H1 as (H1 & H3). apply andb_true_iff in H2 as (H2 & H4). rewrite (IH _ _ H3 H4). lia.
    + cbn [find_opcode]. replace (strncaseq _ _ (op_name p)) with false; [apply IH; constructor; assumption|].
      destruct (strncaseq _ _ (op_name p)) eqn:S; [|reflexivity]. apply strncaseq_exact in S; [|assumption|exact Hr].
      rewrite (ci_trans _ _ _ Hn S) in E. discriminate.
Qed.
Lemma strncaseq_ci : forall name r o, length name = length o -> strncaseq (length o) (name ++ r) o = eqbl_ci name o.
Proof.
  induction name as [|x name IH]; intros r [|y o] L; try discriminate; [reflexivity|]. cbn [app length strncaseq eqbl_ci]. f_equal.
  apply IH. now injection L.
Qed.

Lemma match_cons base p o ops' : match_opcode_args base p (o :: ops') =
  (let* ' (q, r) := match_instrs base p p (op_instrs o) in
    match r with
    | Some _ => ret (q, r)
    | None =>
      match ops' with
      | o' :: _ =>
        if eqbl_ci (op_name o) (op_name o') then match_opcode_args base p ops'
        else set_error SPASM_ERR_INVALID_OPERANDS ;;; ret (q, None)
      | [] => set_error SPASM_ERR_INVALID_OPERANDS ;;; ret (q, None)
      end
    end).
Proof. reflexivity. Qed.
(** Statements with another mnemonic are matched as before. *)
Lemma match_past o base p : forall l x s, eqbl_ci (op_name o) (op_name x) = false ->
  match_opcode_args base p (x :: insert_opcode o l) s = match_opcode_args base p (x :: l) s.
Proof.
  assert (Sym : forall a b, eqbl_ci a b = eqbl_ci b a).
  { induction a as [|u a IH]; intros [|v b]; try reflexivity. cbn [eqbl_ci]. rewrite IH. f_equal. apply Z.eqb_sym. }
  induction l as [|y l IH]; intros x s H; cbn [insert_opcode].
  - cbn [match_opcode_args]. unfold bind. destruct (match_instrs base p p (op_instrs x) s) as [[q [r|]] s1| | |]; try reflexivity.
    rewrite Sym, H. reflexivity.
  - destruct (eqbl_ci (op_name o) (op_name y)) eqn:E.
    + cbn [match_opcode_args]. unfold bind. destruct (match_instrs base p p (op_instrs x) s) as [[q [r|]] s1| | |]; try reflexivity.
      rewrite (Sym (op_name x) (op_name o)), H. destruct (eqbl_ci (op_name x) (op_name y)) eqn:E2; [|reflexivity].
      rewrite Sym in E2. rewrite Sym in E. rewrite (ci_trans _ _ _ E E2) in H. discriminate.
    + change (match_opcode_args base p (x :: y :: insert_opcode o l) s = match_opcode_args base p (x :: y :: l) s).
      rewrite !(match_cons base p x). unfold bind. destruct (match_instrs base p p (op_instrs x) s) as [[q [r|]] s1| | |]; try reflexivity.
      destruct (eqbl_ci (op_name x) (op_name y)); [|reflexivity]. now apply IH.
Qed.
(** Adding an instruction does not change how statements with other mnemonics are matched: the same
    row with the same operand texts, or the same error. *)
Theorem c44_others : forall o ops name r base p s,
  plain_names (o :: ops) -> isalnum (hd0 r) = false -> eqbl_ci name (op_name o) = false ->
  let before := find_opcode (name ++ r) (length name) ops in
  let after := find_opcode (name ++ r) (length name) (insert_opcode o ops) in
  (after = [] <-> before = []) /\
  match_opcode_args base p after s = match_opcode_args base p before s.
Proof.
  intros o ops name r base p s Hp Hr Hn before after. subst before after.
  assert (Ho : strncaseq (Nat.max (length (op_name o)) (length name)) (name ++ r) (op_name o) = false).
  { destruct (strncaseq _ _ (op_name o)) eqn:E; [|reflexivity]. apply strncaseq_exact in E; [congruence|now inversion Hp|exact Hr]. }
  inversion Hp as [|? ? P1 P2]; subst. clear Hp. induction ops as [|x l IH]; cbn [insert_opcode find_opcode].
  - rewrite Ho. now split.
  - inversion P2 as [|? ? P3 P4]; subst. destruct (eqbl_ci (op_name o) (op_name x)) eqn:E.
    + cbn [find_opcode]. rewrite Ho. now split.
    + cbn [find_opcode]. destruct (strncaseq _ _ (op_name x)) eqn:S; [|now apply IH].
      split; [split; discriminate|now apply match_past].
Qed.
(** A statement with the mnemonic of an added instruction, whose operands do not have the form added,
    is matched as before. *)
Theorem c44_other_forms : forall o ops name r base p q s,
  plain_names (o :: ops) -> isalnum (hd0 r) = false -> eqbl_ci name (op_name o) = true ->
  match_instrs base p p (op_instrs o) s = Ok (q, None) s -> find_opcode (name ++ r) (length name) ops <> [] ->
  match_opcode_args base p (find_opcode (name ++ r) (length name) (insert_opcode o ops)) s =
  match_opcode_args base p (find_opcode (name ++ r) (length name) ops) s.
Proof.
  intros o ops name r base p q s Hp Hr Hn Hm Hf. rewrite find_inserted by assumption.
  assert (K : forall l, plain_names l -> match find_opcode (name ++ r) (length name) l with [] => True | x :: _ => eqbl_ci name (op_name x) = true end).
  { induction l as [|x l IH]; intros P; [exact I|]. inversion P; subst. cbn [find_opcode]. destruct (strncaseq _ _ (op_name x)) eqn:E; [|now apply IH].
    now apply strncaseq_exact in E. }
  specialize (K ops). destruct (find_opcode (name ++ r) (length name) ops) as [|x l]; [easy|].
  inversion Hp; subst. specialize (K H2).
  rewrite (match_cons base p o). rewrite (bind_ok _ _ _ _ _ Hm). cbv iota.
  now rewrite (ci_trans _ _ _ Hn K).
Qed.

(** A statement with the added mnemonic and operands of the form added writes the added row. *)
Theorem c44_statement : forall C R name b nm row ops0 ws ops rest s,
  s_opcodes s = insert_opcode (mkopcode nm [row]) ops0 -> plain_names (mkopcode nm [row] :: ops0) -> eqbl_ci name nm = true ->
  Forall MatchSpec.name_char name -> (c_ez80 C = true -> ~ In 46 name) -> Forall UtilsSpec.blank b ->
  is_name_char (hd0 (b ++ wtext ws ++ rest)) = false ->
  pat_ok 0 (i_args row) = true -> (wilds (i_args row) <= 3)%nat ->
  spells (i_args row) ws ops -> Forall (fun w => item_ok (mkopcode nm [row]) (fst w)) ws -> zlen (wtext ws) <= 254 -> line_over rest ->
  exists args, map (fun a => seg (fst a) (snd a)) args = ops /\
    handle_opcode_or_macro C R (name ++ b ++ wtext ws ++ rest) s =
    (size <- write_instruction_data C R row args (-1) ;; add_pc size ;;;
     adl <- get s_adl ;; let penalty := if adl then i_adl row else 0 in
     add_stats size (i_min row + penalty) (i_max row + penalty) ;;; ret rest) s.
Proof.
  intros C R name b nm row ops0 ws ops rest s Hs Hp Hn Hnm Hez Hb Hx Hpat Hw Hsp Hok Hlen Hr. set (o := mkopcode nm [row]) in *.
  assert (Hd : isalnum (hd0 (b ++ wtext ws ++ rest)) = false).
  { unfold is_name_char in Hx. apply orb_false_iff in Hx as (Hx & _). exact Hx. }
  pose proof (find_inserted name (b ++ wtext ws ++ rest) o Hd Hn ops0 Hp) as Fe.
  destruct (spells_toks o _ _ _ Hsp Hok 0 Hpat) as ((t & I & A) & F & L).
  assert (En : earlier_no o (i_args row) (op_instrs o) t = true) by (cbn; now rewrite eqbl_refl).
  destruct (select o _ ws ops rest s (name ++ b) Hr Hsp Hpat F Hlen ltac:(lia) t A (op_instrs o) (wtext ws ++ rest) En) as (j & args & A1 & A2 & A3 & A4).
  assert (j = row) by (cbn in A1; rewrite eqbl_refl in A1; congruence). subst j.
  exists args. split; [exact A4|].
  unfold handle_opcode_or_macro. cbv zeta. rewrite !bind_get.
  rewrite (skip_name_app name); [|eapply Forall_impl; [|exact Hnm]; intros; now apply name_eq|exact Hx]. rewrite seg_app.
  assert (E : (if c_ez80 C then parse_suffix (s_adl s) name else (-1, length name)) = (-1, length name)).
  { destruct (c_ez80 C); [apply c36_no_suffix; auto|reflexivity]. }
  rewrite E, Hs, Fe. unfold handle_opcode. rewrite (sig_app o ws b rest) by assumption.
  rewrite <- !app_assoc in A3. cbn [match_opcode_args]. rewrite bind_assoc, (bind_ok _ _ _ _ _ A3), bind_ret. cbv iota.
  change (0 <=? -1) with false. change (-1 <? 0) with true. change (0 <? -1) with false. cbn [andb].
  unfold bind. destruct (write_instruction_data C R row args (-1) s) as [size s1| | |]; try reflexivity.
  destruct (add_pc size s1) as [u s2| | |]; try reflexivity. unfold get. cbv beta iota. rewrite orb_false_r. reflexivity.
Qed.

(** ** The bytes *)
Lemma forms_none left args : forallb (fun c => negb (is_arg c)) args = true -> forms left args = args.
Proof.
  revert left. induction args as [|c r IH]; intros left H; [reflexivity|]. cbn [forms forallb] in *. apply andb_true_iff in H as (H & K).
  destruct (c =? ch "*") eqn:E; [apply Z.eqb_eq in E; subst c; discriminate|]. now rewrite IH.
Qed.
Lemma operands_none C R args l suffix size bit s : forallb (fun c => negb (is_arg c)) args = true ->
  write_operands C R args l suffix size bit s = Ok (size, bit) s.
Proof.
  revert l. induction args as [|c r IH]; intros l H; [reflexivity|]. cbn [write_operands forallb] in *. apply andb_true_iff in H as (H & K).
  destruct (is_arg c); [discriminate|]. now apply IH.
Qed.
Lemma hex_bytes_byte : forall n ds, (length ds <= n)%nat -> Forall (digit_of 16) ds -> Forall is_byte (hex_bytes ds).
Proof.
  induction n as [|n IH]; intros ds L F; [destruct ds; [constructor|cbn in L; lia]|].
  destruct ds as [|a [|b r]]; try constructor.
  - inversion F as [|? ? A F1]; subst. inversion F1; subst. pose proof (pair_bound a b A H1). unfold is_byte. lia.
  - apply IH; [cbn in L; lia|]. inversion F; subst. now inversion H2.
Qed.
(** Without operands the bytes written are the declared ones, the last one first, then the end byte;
    the address goes on by the declared size. *)
Theorem c44_bytes : forall C R args ds size e operands s,
  c_normal C = true -> c_ez80 C = false -> forallb (fun c => negb (is_arg c)) args = true ->
  ds <> [] -> Nat.Even (length ds) -> Forall (digit_of 16) ds -> (forall v, e = Some v -> is_byte v) ->
  let bytes := rev (hex_bytes ds) ++ match e with Some v => [v] | None => [] end in
  room (zlen bytes) s ->
  write_instruction_data C R (declared args ds size e) operands (-1) s = Ok size (emitted bytes s).
Proof.
  intros C R args ds size e operands s Hn Hz Ha Nd Ev Fd He bytes Hr.
  unfold write_instruction_data. rewrite bind_get. cbv zeta. change (0 <=? -1) with false. cbn [whenM]. rewrite bind_ret. rewrite Hn. change (true || c_list C) with true.
  cbn [declared i_size i_size0 i_data i_args i_has_end i_end]. rewrite forms_none by exact Ha.
  replace (firstn (Z.to_nat (zlen (hex_bytes ds))) (hex_bytes ds)) with (hex_bytes ds).
  2: { unfold zlen. rewrite Nat2Z.id. symmetry. apply firstn_all. }
  assert (Nb : rev (hex_bytes ds) <> []).
  { destruct ds as [|a [|b r]]; [easy|destruct Ev as (k & K); cbn in K; lia|]. cbn. intros K. now apply app_eq_nil in K as (_ & K). }
  assert (Fb : Forall is_byte (rev (hex_bytes ds))) by (apply Forall_rev, (hex_bytes_byte (length ds)); [lia|exact Fd]).
  assert (Mu : forall l, Forall is_byte l -> map u8 l = l).
  { clear. induction 1 as [|x l H F IH]; [reflexivity|]. cbn. rewrite IH. f_equal. unfold u8. apply Z.mod_small. exact H. }
  assert (Wo : forall s0 size bit suffix, write_operands C R args operands suffix size bit s0 = Ok (size, bit) s0) by (intros; now apply operands_none).
  cbn [whenM]. destruct e as [v|]; cbn [andb].
  - assert (E : bytes = rev (hex_bytes ds) ++ [v]) by reflexivity.
    assert (Hv : is_byte v) by now apply He.
    assert (Hw : (write_all (rev (hex_bytes ds)) ;;; write_all [v]) s = Ok tt (emitted bytes s)).
    { rewrite write_all_chain; [|exact Nb|discriminate|rewrite <- E; exact Hr]. rewrite <- E, write_all_emitted; [|rewrite E; intros K; now apply app_eq_nil in K as (_ & K)|exact Hr].
      rewrite Mu; [reflexivity|]. rewrite E. apply Forall_app. split; [exact Fb|now constructor]. }
    unfold bind in Hw |- *. destruct (write_all (rev (hex_bytes ds)) s) as [u s1| | |]; try discriminate. rewrite Wo. cbv beta iota. cbn [write_all] in Hw.
    cbn [whenM]. unfold bind in Hw. destruct (write_out v s1) as [u2 s2| | |]; try discriminate. injection Hw as Hw. rewrite Hw. reflexivity.
  - assert (E : bytes = rev (hex_bytes ds)) by (unfold bytes; apply app_nil_r). rewrite E in *.
    rewrite (bind_ok _ _ _ _ _ (write_all_emitted _ s Nb Hr)). rewrite Mu by exact Fb. unfold bind. rewrite Wo. reflexivity.
Qed.

(** ** The size *)
Definition stars (args : text) : nat := length (filter (fun c => c =? ch "*") args).
Definition only_stars (args : text) : Prop := Forall (fun c => is_arg c = true -> c = ch "*") args.
Lemma width_plain c : is_arg c = false -> operand_width false c = 0.
Proof.
  unfold is_arg, operand_width. intros H. unfold memb in H. cbn in H.
  repeat match goal with |- context [if ?b then _ else _] => destruct b eqn:? end; try reflexivity; exfalso; change (ch "*") with 42 in *; change (ch "&") with 38 in *; change (ch "%") with 37 in *; change (ch "@") with 64 in *; change (ch "#") with 35 in *; lia.
Qed.

Definition bonus (left : Z) (n : nat) : Z := if Z.even left && (2 <=? left) && (left <=? 2 * Z.of_nat n) then 1 else 0.
Lemma forms_width args : only_stars args -> forall left,
  operands_width false (forms left args) = Z.of_nat (stars args) + bonus left (stars args).
Proof.
  unfold stars. induction 1 as [|c r Hc _ IH]; intros left.
  - cbn. unfold bonus. destruct (Z.even left && (2 <=? left) && (left <=? 2 * Z.of_nat 0)) eqn:E; [lia|reflexivity].
  - cbn [forms filter]. destruct (c =? ch "*") eqn:E.
    + cbn [length operands_width fold_right]. fold (operands_width false (forms (left - 2) r)). rewrite IH. set (n := length _).
      assert (Ev : Z.even (left - 2) = Z.even left) by (rewrite Z.even_sub; now destruct (Z.even left)).
      unfold bonus. rewrite Ev, Nat2Z.inj_succ. destruct (left =? 2) eqn:E2.
      * apply Z.eqb_eq in E2. subst left. change (operand_width false (ch "*")) with 2. change (Z.even 2) with true. cbn [andb].
        replace (2 <=? 2 * Z.succ (Z.of_nat n)) with true by lia. change (2 <=? 2 - 2) with false. change (2 <=? 2) with true. cbn [andb]. lia.
      * change (operand_width false (ch "&")) with 1. destruct (Z.even left) eqn:E3; cbn [andb]; [|lia].
        assert (left <> 3) by (intros ->; discriminate).
        destruct ((2 <=? left - 2) && (left - 2 <=? 2 * Z.of_nat n)) eqn:E4; destruct ((2 <=? left) && (left <=? 2 * Z.succ (Z.of_nat n))) eqn:E5; lia.
    + cbn [operands_width fold_right]. fold (operands_width false (forms left r)). rewrite IH. rewrite width_plain; [reflexivity|].
      apply Z.eqb_neq in E. destruct (is_arg c) eqn:A; [|reflexivity]. exfalso. exact (E (Hc eq_refl)).
Qed.
Lemma declared_width args ds size e : only_stars args ->
  body_width (declared args ds size e) false =
  let left := size - zlen (hex_bytes ds) - count e in
  zlen (hex_bytes ds) + count e + Z.of_nat (stars args) + bonus left (stars args).
Proof.
  intros H. unfold body_width. cbn [declared i_size0 i_data i_args i_has_end].
  replace (firstn (Z.to_nat (zlen (hex_bytes ds))) (hex_bytes ds)) with (hex_bytes ds).
  2: { unfold zlen. rewrite Nat2Z.id. symmetry. apply firstn_all. }
  rewrite forms_width by exact H. destruct e; cbn [count]; lia.
Qed.
(** An instruction with one operand, declared with a size that leaves one or two bytes for it, or with
    none and the size of its bytes, writes as many bytes as declared. *)
Theorem c44_size : forall C n args ds size e operands s,
  c_normal C = true -> (c_ez80 C = true -> s_adl s = false) -> inv s -> Forall (fun a => clean (seg (fst a) (snd a))) operands -> only_stars args ->
  (stars args = 0%nat /\ size = zlen (hex_bytes ds) + count e \/
   stars args = 1%nat /\ (size = zlen (hex_bytes ds) + count e + 1 \/ size = zlen (hex_bytes ds) + count e + 2)) ->
  match write_instruction_data C (knot C n) (declared args ds size e) operands (-1) s with
  | Ok size' s' => size' = size /\ (s_pos s' = s_pos s + size \/ (length (s_errs s) < length (s_errs s'))%nat)
  | Exit _ _ => False
  | _ => True
  end.
Proof.
  intros C n args ds size e operands s Hn Hz Hs Ho Ha Hc.
  pose proof (P_instruction C (knot C n) (knot_ev C n) (declared args ds size e) operands (-1) s Hn Hs Ho) as K.
  destruct (write_instruction_data C (knot C n) (declared args ds size e) operands (-1) s) as [sz s'| | |]; try exact K.
  cbv zeta in K.
  replace (il (mode_of C (s_adl s) (-1))) with false in K by (unfold mode_of; destruct (c_ez80 C); [rewrite Hz by reflexivity|]; reflexivity).
  change (0 <=? -1) with false in K. cbv iota in K.
  destruct K as (K1 & K2). cbn [declared i_size] in K2. split; [lia|]. destruct (pt_pos _ _ _ K1) as [K3|K3]; [left|right; exact K3].
  rewrite K3, declared_width by exact Ha. cbv zeta.
  assert (B : forall m k, bonus m k = 0 \/ bonus m k = 1) by (intros; unfold bonus; destruct (_ && _); auto).
  destruct Hc as [(E & H)|(E & [H|H])]; rewrite E; rewrite H.
  - replace (zlen (hex_bytes ds) + count e - zlen (hex_bytes ds) - count e) with 0 by lia. change (bonus 0 0) with 0. lia.
  - replace (zlen (hex_bytes ds) + count e + 1 - zlen (hex_bytes ds) - count e) with 1 by lia. change (bonus 1 1) with 0. lia.
  - replace (zlen (hex_bytes ds) + count e + 2 - zlen (hex_bytes ds) - count e) with 2 by lia. change (bonus 2 1) with 1. lia.
Qed.
(** With two operands no declared size agrees with the bytes written: the address after the
    instruction is wrong, whatever the declaration. *)
Theorem c44_two_operands_refuted : forall C n args ds size e operands s,
  c_normal C = true -> (c_ez80 C = true -> s_adl s = false) -> inv s -> Forall (fun a => clean (seg (fst a) (snd a))) operands -> only_stars args ->
  stars args = 2%nat ->
  match write_instruction_data C (knot C n) (declared args ds size e) operands (-1) s with
  | Ok size' s' => size' = size /\ (s_pos s' <> s_pos s + size \/ (length (s_errs s) < length (s_errs s'))%nat)
  | Exit _ _ => False
  | _ => True
  end.
Proof.
  intros C n args ds size e operands s Hn Hz Hs Ho Ha Hc.
  pose proof (P_instruction C (knot C n) (knot_ev C n) (declared args ds size e) operands (-1) s Hn Hs Ho) as K.
  destruct (write_instruction_data C (knot C n) (declared args ds size e) operands (-1) s) as [sz s'| | |]; try exact K.
  cbv zeta in K.
  replace (il (mode_of C (s_adl s) (-1))) with false in K by (unfold mode_of; destruct (c_ez80 C); [rewrite Hz by reflexivity|]; reflexivity).
  change (0 <=? -1) with false in K. cbv iota in K.
  destruct K as (K1 & K2). cbn [declared i_size] in K2. split; [lia|]. destruct (pt_pos _ _ _ K1) as [K3|K3]; [left|right; exact K3].
  rewrite K3, declared_width by exact Ha. cbv zeta. rewrite Hc. set (left := size - zlen (hex_bytes ds) - count e).
  replace (size) with (left + zlen (hex_bytes ds) + count e) by (unfold left; lia).
  unfold bonus. destruct (Z.even left && (2 <=? left) && (left <=? 2 * Z.of_nat 2)) eqn:E; [|destruct (Z.even left) eqn:Ev].
  - apply andb_true_iff in E as (E & E3). apply andb_true_iff in E as (E1 & E2).
    assert (left <> 3) by (intros Q; rewrite Q in E1; discriminate). lia.
  - cbn [andb] in E. assert (left <> 2) by (intros Q; rewrite Q in E; discriminate). lia.
  - assert (left <> 2) by (intros Q; rewrite Q in Ev; discriminate). lia.
Qed.
(** More than four opcode bytes are accepted up to eight and shift a 32-bit value by 32 or more. *)
Theorem c44_long_refuted :
  dir_addinstr (mkcfg true false false false false false (fun _ => None) (fun _ => 0) [] (fun x => x) true)
    (knot (mkcfg true false false false false false (fun _ => None) (fun _ => 0) [] (fun x => x) true) 20)
    (zs " FOO """" 0000000001 5 NOP 1") Programs.blank = Undef UB_overflow.
Proof. vm_compute. reflexivity. Qed.

(** ** Cases *)
Definition wd (b t : string) : UtilsSpec.operand := mkoperand (zs b) (map PChar (zs t)) [].
Definition plain_textb (t : text) : bool :=
  forallb (fun c => negb (memb c [32; 9; 11; 12; 10; 13; 34; 39; 40; 41; 92; 59; 0]) && (0 <? c) && (c <? 128)) t.
Lemma wd_text b t : operand_text (wd b t) = zs t.
Proof. unfold wd, operand_text, pieces_text. cbn [o_body]. generalize (zs t). intros l. induction l as [|c r IH]; [reflexivity|]. cbn. now rewrite IH. Qed.
Lemma wd_word b t : b = " "%string -> plain_textb (zs t) = true -> zs t <> [] -> zlen (zs t) <= 254 -> word (wd b t).
Proof.
  intros -> P N L. split; [|reflexivity]. unfold operand_okd. rewrite wd_text. unfold wd. cbn [o_before o_after o_body].
  unfold plain_textb in P. rewrite forallb_forall in P.
  assert (Q : forall c, In c (zs t) -> ~ In c [32; 9; 11; 12; 10; 13; 34; 39; 40; 41; 92; 59; 0]).
  { intros c H K. apply P in H. apply andb_true_iff in H as (H & _). apply andb_true_iff in H as (H & _).
    unfold memb in H. apply negb_true_iff in H. rewrite <- not_true_iff_false in H. apply H. apply existsb_exists. exists c. split; [exact K|lia]. }
  split; [repeat constructor; unfold UtilsSpec.blank; cbn; lia|]. split; [constructor|]. split.
  { apply Forall_map, Forall_forall. intros c H. specialize (Q c H). cbn in Q. constructor; [unfold bracket; intuition lia|intros _; unfold line_ender; cbn; intuition lia]. }
  split.
  { destruct (zs t) as [|c r] eqn:E; [easy|]. exists c, r. split; [reflexivity|]. specialize (Q c (or_introl eq_refl)). unfold UtilsSpec.blank. cbn in Q. intuition lia. }
  split.
  { destruct (exists_last N) as (l & c & E). exists c, l. split; [exact E|]. specialize (Q c). rewrite E in Q. specialize (Q (in_or_app l [c] c (or_intror (or_introl eq_refl)))).
    unfold UtilsSpec.blank. cbn in Q. intuition lia. }
  cbn. unfold zlen in *. cbn [length]. lia.
Qed.
Definition cfg44 : cfg := mkcfg true false false false false false (fun _ => None) (fun _ => 0) [] (fun x => x) false.
Definition st44 : st := set_sess 1 (set_opcodes opcode_list Programs.blank).
Lemma hex_of t : forallb (fun c => match digit_value c with Some d => d <? 16 | None => false end) t = true -> Forall (digit_of 16) t.
Proof.
  intros H. rewrite forallb_forall in H. apply Forall_forall. intros c K. specialize (H c K). unfold digit_of.
  destruct (digit_value c) as [d|]; [|discriminate]. exists d. split; [reflexivity|lia].
Qed.
Lemma space_spaced t : spaced (o_before (wd " " t)). Proof. exists []. left. reflexivity. Qed.
Example c44_declaration_case :
  exists s', dir_addinstr cfg44 (knot cfg44 4) (zs " IN A,* 36CBDD 5 NOP 1 2A") st44 = Ok [] s' /\
    s_opcodes s' = insert_opcode (mkopcode (zs "IN") [mkinstr (zs "A,&") [54; 203; 221] 3 0 0 true 42 5 0]) (s_opcodes st44).
Proof.
  pose proof (c44_declaration cfg44 4 st44 (wd " " "IN") (wd " " "A,*") (wd " " "36CBDD") (wd " " "5") [wd " " "NOP"; wd " " "1"; wd " " "2A"]
    (zs "A,*") (Single (Leaf NoSign (Num (Decimal (zs "5"))))) 5 (fun _ => None) (Some 42) [] []) as H.
  rewrite !wd_text in H. eexists. split.
  - etransitivity; [|apply H]; clear H.
    + reflexivity.
    + apply wd_word; [reflexivity..|discriminate|vm_compute; discriminate].
    + apply wd_word; [reflexivity..|discriminate|vm_compute; discriminate].
    + apply space_spaced.
    + apply wd_word; [reflexivity..|discriminate|vm_compute; discriminate].
    + apply space_spaced.
    + apply wd_word; [reflexivity..|discriminate|vm_compute; discriminate].
    + apply space_spaced.
    + unfold form_ok. change (zs "A,*") with [65; 44; 42]. repeat (apply Forall_cons; [lia|]). apply Forall_nil.
    + apply form_plain. discriminate.
    + vm_compute; discriminate.
    + apply hex_of. reflexivity.
    + cbn. auto.
    + apply W_single. apply (W_leaf NoSign [] (Num (Decimal (zs "5")))); [|constructor|reflexivity].
      split; [discriminate|]. split; [|exact I]. apply Forall_cons; [|apply Forall_nil]. exists 5. split; [reflexivity|cbn; lia].
    + cbn. lia.
    + cbn. lia.
    + intros m K. destruct K.
    + reflexivity.
    + unfold is_int. lia.
    + lia.
    + replace (Some 42) with (Some (numeral 16 [50; 65])) by reflexivity.
      apply (more_three (wd " " "NOP") (wd " " "1") (wd " " "2A") 50 65); try apply space_spaced; try (apply wd_word; [reflexivity..|discriminate|vm_compute; discriminate]).
      * reflexivity.
      * exists 2. split; [reflexivity|lia].
      * exists 10. split; [reflexivity|lia].
    + left. reflexivity.
    + left. reflexivity.
  - reflexivity.
Qed.
Definition row44 : instr := declared (zs "A,*") (zs "36CBDD") 5 (Some 42).
Definition new44 : opcode := mkopcode (zs "IN") [row44].
Lemma names44 : plain_names (new44 :: opcode_list) /\ plain_names (new44 :: opcode_list_ez80).
Proof.
  assert (K : forall l, forallb (fun o => forallb isalnum (op_name o)) l = true -> plain_names l).
  { intros l H. rewrite forallb_forall in H. apply Forall_forall. intros o Ho. apply Forall_forall. specialize (H o Ho). now rewrite forallb_forall in H. }
  split; apply K; vm_compute; reflexivity.
Qed.
(** The declaration leaves ld, inc, ... as they were, and in a,(n) and in a,(c) too. *)
Example c44_others_case : forall base p s,
  match_opcode_args base p (find_opcode (zs "ld a,(hl)") 2 (insert_opcode new44 opcode_list)) s =
  match_opcode_args base p (find_opcode (zs "ld a,(hl)") 2 opcode_list) s /\
  match_opcode_args (zs "in b,(c)") (zs "b,(c)") (find_opcode (zs "in b,(c)") 2 (insert_opcode new44 opcode_list)) st44 =
  match_opcode_args (zs "in b,(c)") (zs "b,(c)") (find_opcode (zs "in b,(c)") 2 opcode_list) st44.
Proof.
  intros. split.
  - exact (proj2 (c44_others new44 opcode_list (zs "ld") (zs " a,(hl)") base p s (proj1 names44) eq_refl eq_refl)).
  - refine (c44_other_forms new44 opcode_list (zs "in") (zs " b,(c)") (zs "in b,(c)") (zs "b,(c)") (zs "b,(c)") st44 (proj1 names44) eq_refl eq_refl _ _).
    + vm_compute. reflexivity.
    + vm_compute. discriminate.
Qed.
Example c44_program :
  assemble 80 [] (prog [" .addinstr IN A,* 36CBDD 5 NOP 1 2A"; " in a,7"; " in b,(c)"; " ld a,7"; " .dw $"]%string) =
    Some (0, Some [221; 203; 54; 7; 42; 237; 64; 62; 7; 9; 0], []) /\
  assemble 80 [] (prog [" .addinstr FOO """" 36CBDD 3 NOP 1"; " foo"; " .addinstr BAR HL,* 21 3 NOP 1"; " bar hl,$1234"; " .dw $"]%string) =
    Some (0, Some [221; 203; 54; 33; 52; 18; 6; 0], []) /\
  assemble 80 [] (prog [" .addinstr BAR *,* 21 5 NOP 1"; " bar 1,2"; " .dw $"]%string) =
    Some (0, Some [33; 1; 2; 0; 5; 0], []).
Proof. repeat split; vm_compute; reflexivity. Qed.
Definition field44 : field := [(IChar (ch "a"), []); (IChar (ch ","), zs " "); (IPlain (map PChar (zs "7")), [])].
Example c44_statement_case :
  let s := set_opcodes (insert_opcode new44 opcode_list) Programs.blank in
  exists args, map (fun a => seg (fst a) (snd a)) args = [zs "7"] /\
    handle_opcode_or_macro cfg44 (knot cfg44 5) (zs "In a, 7") s =
    (size <- write_instruction_data cfg44 (knot cfg44 5) row44 args (-1) ;; add_pc size ;;;
     adl <- get s_adl ;; let penalty := if adl then i_adl row44 else 0 in
     add_stats size (i_min row44 + penalty) (i_max row44 + penalty) ;;; ret []) s.
Proof.
  intros s. refine (c44_statement cfg44 (knot cfg44 5) (zs "In") (zs " ") (zs "IN") row44 opcode_list field44 [zs "7"] [] s eq_refl (proj1 names44) eq_refl _ _ _ eq_refl eq_refl _ _ _ _ _).
  - change (zs "In") with [73; 110]. repeat (apply Forall_cons; [left; unfold MatchSpec.letter_or_digit; lia|]). apply Forall_nil.
  - discriminate.
  - repeat constructor.
  - vm_compute. lia.
  - change (i_args row44) with [65; 44; 38]. unfold field44.
    repeat (apply sp_char; [unfold wild; simpl; lia|cbv; discriminate|unfold same_char; cbv -[Z.add Z.sub Z.le]; lia|repeat constructor|]).
    change (zs "7") with (pieces_text (map PChar (zs "7")) ++ []) at 2. apply sp_plain; [unfold wild; simpl; lia|constructor|constructor].
  - assert (W : writes (Single (Leaf NoSign (Num (Decimal (zs "7"))))) (zs "7")).
    { apply W_single. apply (W_leaf NoSign [] (Num (Decimal (zs "7")))); [|constructor|reflexivity].
      split; [discriminate|]. split; [|exact I]. apply Forall_cons; [|apply Forall_nil]. exists 7. split; [reflexivity|cbn; lia]. }
    assert (P : plain_ok new44 (map PChar (zs "7"))).
    { destruct (c12_operand new44 _ _ W) as (l & El & Hl); [discriminate|intros K; apply wordb_reserved in K; vm_compute in K; discriminate|].
      destruct Hl as (_ & H2 & H3). split; [apply pchars; repeat (apply Forall_cons; [unfold bracket, line_ender; simpl; lia|]); constructor|].
      unfold closes. rewrite map_pchar, <- El. split; assumption. }
    unfold field44. repeat (apply Forall_cons; [first [exact I|exact P]|]). apply Forall_nil.
  - vm_compute. discriminate.
  - left. reflexivity.
Qed.
Example c44_bytes_case : write_instruction_data cfg44 (knot cfg44 5) (declared [] (zs "36CBDD") 3 (Some 42)) [] (-1) st44 = Ok 3 (emitted [221; 203; 54; 42] st44).
Proof.
  refine (c44_bytes cfg44 (knot cfg44 5) [] (zs "36CBDD") 3 (Some 42) [] st44 eq_refl eq_refl eq_refl _ _ _ _ _).
  - discriminate.
  - now exists 3%nat.
  - apply hex_of. reflexivity.
  - intros v E. injection E as <-. unfold is_byte. lia.
  - unfold room. vm_compute. split; discriminate.
Qed.
Lemma inv44 : inv st44.
Proof.
  split.
  - vm_compute. discriminate.
  - change (clean [97; 46; 97; 115; 109]). repeat (apply Forall_cons; [lia|]). apply Forall_nil.
  - repeat constructor.
  - repeat constructor.
  - constructor.
Qed.
Example c44_size_case :
  match write_instruction_data cfg44 (knot cfg44 9) row44 [(zs "7", [])] (-1) st44 with
  | Ok size' s' => size' = 5 /\ s_pos s' = 5 /\ s_mem s' = [221; 203; 54; 7; 42]
  | _ => False
  end.
Proof.
  pose proof (c44_size cfg44 9 (zs "A,*") (zs "36CBDD") 5 (Some 42) [(zs "7", [])] st44 eq_refl (fun _ => eq_refl) inv44) as H.
  assert (H1 : Forall (fun a => clean (seg (fst a) (snd a))) [(zs "7", [] : text)]) by (apply Forall_cons; [apply Forall_cons; [cbv; discriminate|apply Forall_nil]|apply Forall_nil]).
  assert (H2 : only_stars (zs "A,*")) by (unfold only_stars; change (zs "A,*") with [65; 44; 42]; repeat (apply Forall_cons; [intros K; first [discriminate K|reflexivity]|]); apply Forall_nil).
  specialize (H H1 H2 ltac:(right; split; [reflexivity|left; reflexivity])). clear H. vm_compute. repeat split.
Qed.

Print Assumptions c44_declaration.
Print Assumptions c44_others.
Print Assumptions c44_other_forms.
Print Assumptions c44_statement.
Print Assumptions c44_bytes.
Print Assumptions c44_size.
Print Assumptions c44_two_operands_refuted.
Print Assumptions c44_long_refuted.
