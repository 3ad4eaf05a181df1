(** Properties of expression evaluation: C01, C02, C03. *)
From Verif Require Import Base BaseProofs State MonadProofs UtilsModel ErrorsModel StorageModel ParserModel Knot MainModel
  UtilsSpec UtilsProofs PassTwoSpec StorageProofs ParserSpec ParserProofs DivProofs Validate Programs.

(** The text of an operand ends where the code line ends. *)
Definition line_end (r : list Z) : Prop := r = [] \/ exists c t, r = c :: t /\ line_ender c.
Lemma line_end_eol r : line_end r -> is_eol r = true.
Proof. intros [->|(c & t & -> & H)]; [reflexivity|]. now apply is_eol_cons. Qed.

Definition no_need (n : list Z) : nat := 0.
Lemma wt_nest : (forall t, Z.of_nat (wt_term no_need t) = nest_term t) /\ (forall e, Z.of_nat (wt no_need e) = nest e).
Proof.
  apply term_expr_ind.
  - intros g a. destruct a; reflexivity.
  - intros g e IH. cbn [wt_term nest_term]. lia.
  - intros t IH. exact IH.
  - intros e IH o t IHt. cbn [wt nest]. lia.
Qed.

(** Every written expression evaluates to its meaning, with nothing else changed than the two
    bookkeeping fields of the evaluator; or its error is recorded. *)
Theorem c01_left_to_right : forall C n s names e te w1 w2 rest,
  writes e te -> Forall UtilsSpec.blank w1 -> Forall UtilsSpec.blank w2 -> line_end rest ->
  nest e <= 19 -> nest e < Z.of_nat n -> (forall m, mentions m e -> resolves C s names m) ->
  let result := parse_num (knot C n) (w1 ++ te ++ w2 ++ rest) s in
  match value (c_wrap C) (s_pc s) names e with
  | Val v => result = Ok (Some v) (set_depth 0 (set_fwd false s))
  | Err code => exists d, result = Ok None (noted false code (set_depth d (set_fwd (code =? 262) s)))
  | Undefined => result = Undef UB_overflow
  end.
Proof.
  intros C n s names e te w1 w2 rest He Hw1 Hw2 Hr Hn19 Hn Hres result. subst result.
  destruct n as [|n]; [destruct wt_nest as (_ & W); specialize (W e); lia|].
  pose proof (proj2 wt_nest e) as W.
  assert (Hread : forall k m d, resolves C s names m -> name_ok m -> (no_need m <= k)%nat ->
    d + Z.of_nat (no_need m) <= 20 -> name_reads C (knot C k) s names d m).
  { intros k m d Hm Hok _ _. now apply resolves_reads. }
  assert (Hall : expr_reads C s names no_need (fun m => resolves C s names m) e) by now apply reads_all.
  pose proof (full_end C s names no_need (fun m => resolves C s names m) Hread e te w1 w2 rest n 0 Hall Hw1 He Hw2 Hres ltac:(lia)
    ltac:(lia) (line_end_eol _ Hr)) as H.
  unfold parse_num. cbn [knot f_full]. rewrite bind_upd.
  assert (Eq : parse_num_full C (knot C n) (w1 ++ te ++ w2 ++ rest) 0 (set_depth 0 s) =
    parse_num_full C (knot C n) (w1 ++ te ++ w2 ++ rest) 0 (at_ s 0)).
  { unfold parse_num_full. rewrite !bind_upd. reflexivity. }
  unfold bind. rewrite Eq.
  destruct (value (c_wrap C) (s_pc s) names e) as [v|code|]; simpl in H.
  - rewrite H. reflexivity.
  - destruct H as (d & ->). exists d. reflexivity.
  - rewrite H. reflexivity.
Qed.
(** 2 + 3 * -(4 - lab)  with lab = 9, twice the blanks, is 25. *)
Definition c01_expr : expr :=
  Bin (Bin (Single (Leaf NoSign (Num (Decimal (zs "2"))))) Plus (Leaf NoSign (Num (HexDollar (zs "03")))))
    Times (Par Neg (Bin (Single (Leaf NoSign (Num (BinPercent (zs "100"))))) Minus (Leaf NoSign (Name (zs "lab"))))).
Definition c01_state : st := set_labels [(zs "LAB", mklabel (zs "LAB") 1 [] 9)] blank.
Definition c01_names (n : list Z) : option Z := if eqbl n (zs "lab") then Some 9 else None.
Ltac digits := cbv [literal_digits literal_base]; match goal with |- Forall ?P ?l => let v := eval vm_compute in l in change (Forall P v) end; repeat (apply Forall_cons; [eexists; split; [reflexivity|lia]|]); apply Forall_nil.
Lemma c01_writes : writes c01_expr (zs "2+ $03 *- (%100-lab)").
Proof.
  apply (W_bin _ (zs "2+ $03") (zs " ") Times [] _ (zs "- (%100-lab)")); [|repeat constructor; unfold UtilsSpec.blank; lia|constructor| |discriminate].
  - apply (W_bin _ (zs "2") [] Plus (zs " ") _ (zs "$03")); [|constructor|repeat constructor; unfold UtilsSpec.blank; lia| |discriminate].
    + constructor. apply (W_leaf NoSign [] (Num (Decimal (zs "2")))); [|constructor|reflexivity].
      split; [discriminate|]. split; [digits|exact I].
    + apply (W_leaf NoSign [] (Num (HexDollar (zs "03")))); [|constructor|reflexivity].
      split; [discriminate|]. split; [digits|exact I].
  - apply (W_par Neg (zs " ") [] _ (zs "%100-lab") []); [repeat constructor; unfold UtilsSpec.blank; lia|discriminate|constructor| |constructor].
    apply (W_bin _ (zs "%100") [] Minus [] _ (zs "lab")); [|constructor|constructor| |discriminate].
    + constructor. apply (W_leaf NoSign [] (Num (BinPercent (zs "100")))); [|constructor|reflexivity].
      split; [discriminate|]. split; [digits|exact I].
    + apply (W_leaf NoSign [] (Name (zs "lab"))); [|constructor|reflexivity].
      split; [discriminate|]. split; [exists 108; eexists; split; [reflexivity|unfold name_start; lia]|].
      match goal with |- Forall ?P ?l => let v := eval vm_compute in l in change (Forall P v) end.
      repeat (apply Forall_cons; [unfold name_char; lia|]); apply Forall_nil.
Qed.
Example c01_case :
  writes c01_expr (zs "2+ $03 *- (%100-lab)") /\ nest c01_expr = 1 /\
  (forall m, mentions m c01_expr -> resolves (mkconf (world_of []) args0) c01_state c01_names m) /\
  value false (s_pc c01_state) c01_names c01_expr = Val 25 /\
  parse_num (knot (mkconf (world_of []) args0) 2) (zs " 2+ $03 *- (%100-lab) ; comment") c01_state
    = Ok (Some 25) (set_depth 0 (set_fwd false c01_state)).
Proof.
  split; [exact c01_writes|]. split; [reflexivity|]. split.
  - intros m H. assert (E : zs "lab" = m) by (cbn [c01_expr mentions term_mentions] in H; tauto). subst m. split; [reflexivity|].
    exists (mklabel (zs "LAB") 1 [] 9). split; reflexivity.
  - split; reflexivity.
Qed.

(** No run of the assembler, on any source text and any options, executes a division that C
    leaves undefined. *)
Theorem c02_no_undefined_division : forall fuel w argv, main fuel w argv <> Crash UB_divide.
Proof. exact nodiv_main. Qed.
(** Such a division is reported instead: whatever the operands are, the error is recorded. *)
Theorem c02_division_reported : forall C n s names e o t te w1 w2 rest a b,
  writes (Bin e o t) te -> Forall UtilsSpec.blank w1 -> Forall UtilsSpec.blank w2 -> line_end rest ->
  nest (Bin e o t) <= 19 -> nest (Bin e o t) < Z.of_nat n ->
  (forall m, mentions m (Bin e o t) -> resolves C s names m) ->
  o = Divide \/ o = Modulo ->
  value (c_wrap C) (s_pc s) names e = Val a -> term_value (c_wrap C) (s_pc s) names t = Val b ->
  let result := parse_num (knot C n) (w1 ++ te ++ w2 ++ rest) s in
  (b = 0 -> exists d, result = Ok None (noted false 515 (set_depth d (set_fwd false s)))) /\
  (a = -2147483648 -> b = -1 -> exists d, result = Ok None (noted false 517 (set_depth d (set_fwd false s)))) /\
  (b <> 0 -> ~ (a = -2147483648 /\ b = -1) ->
     result = Ok (Some (if match o with Divide => true | _ => false end then Z.quot a b else Z.rem a b))
       (set_depth 0 (set_fwd false s))).
Proof.
  intros C n s names e o t te w1 w2 rest a b Hw H1 H2 Hr Hn Hk Hres Ho Ha Hb.
  pose proof (c01_left_to_right C n s names _ te w1 w2 rest Hw H1 H2 Hr Hn Hk Hres) as H. cbv zeta in *.
  change (value (c_wrap C) (s_pc s) names (Bin e o t)) with
    (andthen (value (c_wrap C) (s_pc s) names e) (fun a => andthen (term_value (c_wrap C) (s_pc s) names t) (compute (c_wrap C) o a))) in H.
  rewrite Ha, Hb in H. cbn [andthen] in H.
  assert (E : exists f, compute (c_wrap C) o a b = divide f a b /\
    f a b = (if match o with Divide => true | _ => false end then Z.quot a b else Z.rem a b)).
  { destruct Ho as [-> | ->]; eexists; split; reflexivity. }
  destruct E as (f & -> & <-) in H. unfold divide in H. repeat split.
  - intros ->. exact H.
  - intros -> ->. exact H.
  - intros N1 N2. replace (b =? 0) with false in H by lia.
    replace ((a =? -2147483648) && (b =? -1)) with false in H by lia. exact H.
Qed.
(** The only undefined arithmetic of an expression is a result outside 32 bits of + - * or unary
    minus, or a shift count outside 0..31. *)
Fixpoint overflows_term (here : Z) (names : list Z -> option Z) (t : term) : Prop :=
  match t with
  | Leaf Neg a => exists v, atom_value here names a = Val v /\ ~ (-2147483648 <= - v <= 2147483647)
  | Leaf _ _ => False
  | Par g e => overflows here names e \/
      (g = Neg /\ exists v, value false here names e = Val v /\ ~ (-2147483648 <= - v <= 2147483647))
  end
with overflows (here : Z) (names : list Z -> option Z) (e : expr) : Prop :=
  match e with
  | Single t => overflows_term here names t
  | Bin e o t => overflows here names e \/ overflows_term here names t \/
      exists a b, value false here names e = Val a /\ term_value false here names t = Val b /\
        match o with
        | Plus => ~ (-2147483648 <= a + b <= 2147483647)
        | Minus => ~ (-2147483648 <= a - b <= 2147483647)
        | Times => ~ (-2147483648 <= a * b <= 2147483647)
        | ShiftL | ShiftR => ~ (0 <= b <= 31)
        | _ => False
        end
  end.
Theorem c02_only_overflow : forall C n s names e te w1 w2 rest,
  writes e te -> Forall UtilsSpec.blank w1 -> Forall UtilsSpec.blank w2 -> line_end rest ->
  nest e <= 19 -> nest e < Z.of_nat n -> (forall m, mentions m e -> resolves C s names m) ->
  c_wrap C = false ->
  (exists w, parse_num (knot C n) (w1 ++ te ++ w2 ++ rest) s = Undef w) -> overflows (s_pc s) names e.
Proof.
  intros C n s names e te w1 w2 rest He H1 H2 Hr Hn Hk Hres Hwrap (w & Hu).
  pose proof (c01_left_to_right C n s names _ te w1 w2 rest He H1 H2 Hr Hn Hk Hres) as H. cbv zeta in *.
  rewrite Hu, Hwrap in H.
  assert (K : (forall t, term_value false (s_pc s) names t = Undefined -> overflows_term (s_pc s) names t) /\
              (forall e, value false (s_pc s) names e = Undefined -> overflows (s_pc s) names e)).
  { assert (Hfit : forall z, fit false z = Undefined -> ~ (-2147483648 <= z <= 2147483647)).
    { intros z. unfold fit. destruct ((-2147483648 <=? z) && (z <? 2147483648)) eqn:E; [discriminate|]. lia. }
    apply term_expr_ind.
    - intros g a Hv. cbn [term_value] in Hv. destruct (atom_value (s_pc s) names a) as [v|c|] eqn:Ea; cbn [andthen] in Hv.
      + destruct g; try discriminate. simpl. exists v. split; [assumption|]. now apply Hfit.
      + discriminate.
      + destruct a; simpl in Ea; try discriminate.
        * destruct (literal_number l <=? 4294967295); discriminate.
        * destruct (names n0); discriminate.
    - intros g e0 IH Hv.
      change (andthen (value false (s_pc s) names e0) (apply_sign false g) = Undefined) in Hv. cbn [overflows_term].
      destruct (value false (s_pc s) names e0) as [v|c|] eqn:Ee; cbn [andthen] in Hv; [|discriminate|left; now apply IH].
      right. destruct g; try discriminate. split; [reflexivity|]. exists v. split; [reflexivity|]. now apply Hfit.
    - intros t IH Hv. apply IH. exact Hv.
    - intros e0 IHe o t IHt Hv.
      change (andthen (value false (s_pc s) names e0)
        (fun a => andthen (term_value false (s_pc s) names t) (compute false o a)) = Undefined) in Hv.
      cbn [overflows]. destruct (value false (s_pc s) names e0) as [a|c|] eqn:Ee; cbn [andthen] in Hv;
        [|discriminate|left; now apply IHe].
      right. destruct (term_value false (s_pc s) names t) as [b|c|] eqn:Et; cbn [andthen] in Hv;
        [|discriminate|left; now apply IHt].
      right. exists a, b. split; [reflexivity|]. split; [reflexivity|].
      destruct o; simpl in Hv; try discriminate; try (now apply Hfit);
        try (destruct ((0 <=? b) && (b <? 32)) eqn:E; [discriminate|lia]);
        unfold divide in Hv; destruct (b =? 0); try discriminate;
        destruct ((a =? -2147483648) && (b =? -1)); discriminate. }
  destruct (value false (s_pc s) names e) as [v|c|] eqn:Ev; [discriminate|destruct H; discriminate|]. now apply K.
Qed.
Example c02_case :
  assemble 60 [] (prog [" .db 7/(3-3)"]%string) = Some (3, None, [515]) /\
  assemble 60 [] (prog [" .dw $80000000 % -1"]%string) = Some (3, None, [517]) /\
  assemble 60 [] (prog [" .db 7/2"]%string) = Some (0, Some [3], []).
Proof. repeat split; vm_compute; reflexivity. Qed.

Lemma literal_answer : forall wraps here names l, value wraps here names (Single (Leaf NoSign (Num l)))
  = if literal_number l <=? 4294967295 then Val (signed32 (literal_number l)) else Err 516.
Proof. intros. cbn [value term_value atom_value]. destruct (literal_number l <=? 4294967295); reflexivity. Qed.
(** Literals read as their value. *)
Theorem c03_literal_value : forall C n s l w1 w2 rest,
  literal_ok l -> Forall UtilsSpec.blank w1 -> Forall UtilsSpec.blank w2 -> line_end rest -> (0 < n)%nat ->
  literal_number l <= 4294967295 ->
  parse_num (knot C n) (w1 ++ literal_text l ++ w2 ++ rest) s
    = Ok (Some (signed32 (literal_number l))) (set_depth 0 (set_fwd false s)) /\
  signed32 (literal_number l) mod 4294967296 = literal_number l.
Proof.
  intros C n s l w1 w2 rest Hl H1 H2 Hr Hn Hv. split.
  - assert (Hw : writes (Single (Leaf NoSign (Num l))) (literal_text l)).
    { constructor. apply (W_leaf NoSign [] (Num l)); [assumption|constructor|reflexivity]. }
    pose proof (c01_left_to_right C n s (fun _ => None) _ _ w1 w2 rest Hw H1 H2 Hr ltac:(simpl; lia) ltac:(simpl; lia)
      ltac:(intros m K; destruct K)) as H.
    rewrite literal_answer in H. replace (literal_number l <=? 4294967295) with true in H by lia. exact H.
  - assert (0 <= literal_number l) by (apply numeral_nonneg; destruct l; simpl; lia).
    unfold signed32. destruct (literal_number l mod 4294967296 <? 2147483648) eqn:E; lia.
Qed.
(** Every number can be written in every form: digits for each base. *)
Theorem c03_digits_exist : forall base v, base = 2 \/ base = 10 \/ base = 16 -> 0 <= v ->
  exists ds, ds <> [] /\ Forall (digit_of base) ds /\ digit_of 10 (hd 0 ds) /\ numeral base ds = v.
Proof.
  intros base v Hb.
  assert (Hd : forall d, 0 <= d < base -> exists c, digit_value c = Some d /\ digit_of base c).
  { intros d Hd. destruct (Z_lt_le_dec d 10).
    - exists (48 + d). assert (E : digit_value (48 + d) = Some d).
      { unfold digit_value. replace ((48 <=? 48 + d) && (48 + d <=? 57)) with true by lia. f_equal. lia. }
      split; [exact E|]. exists d. split; [exact E|lia].
    - exists (55 + d). assert (E : digit_value (55 + d) = Some d).
      { unfold digit_value. replace ((48 <=? 55 + d) && (55 + d <=? 57)) with false by lia.
        replace ((65 <=? 55 + d) && (55 + d <=? 70)) with true by lia. f_equal. lia. }
      split; [exact E|]. exists d. split; [exact E|lia]. }
  assert (Hsnoc : forall ds c d, digit_value c = Some d -> numeral base (ds ++ [c]) = numeral base ds * base + d).
  { intros ds c d E. unfold numeral. rewrite fold_left_app. simpl. now rewrite E. }
  intros Hv. 
  assert (Hex : exists ds, Forall (digit_of base) ds /\ numeral base ds = v).
  { revert v Hv. refine (fun v Hv => Z_lt_induction (fun n => 0 <= n -> exists ds, Forall (digit_of base) ds /\ numeral base ds = n) _ v Hv Hv).
    intros n IH Hn. destruct (Z.eq_dec n 0) as [->|Hz]; [exists []; split; [constructor|reflexivity]|].
    destruct (IH (n / base)) as (ds & Hds & En).
    - assert (1 < base) by lia. split; [apply Z.div_pos; lia|apply Z.div_lt; lia].
    - apply Z.div_pos; lia.
    - destruct (Hd (n mod base)) as (c & Ec & Hc); [apply Z.mod_pos_bound; lia|].
      exists (ds ++ [c]). split; [apply Forall_app; auto|]. rewrite (Hsnoc ds c _ Ec), En.
      rewrite (Z.div_mod n base) at 3 by lia. lia. }
  destruct Hex as (ds & Hds & En). exists (48 :: ds). repeat split.
  - discriminate.
  - constructor; [|assumption]. exists 0. split; [reflexivity|lia].
  - exists 0. split; [reflexivity|lia].
  - unfold numeral in *. simpl. exact En.
Qed.
(** Larger numbers are an overflow error. *)
Theorem c03_overflow : forall C n s l w1 w2 rest,
  literal_ok l -> Forall UtilsSpec.blank w1 -> Forall UtilsSpec.blank w2 -> line_end rest -> (0 < n)%nat ->
  4294967295 < literal_number l ->
  exists d, parse_num (knot C n) (w1 ++ literal_text l ++ w2 ++ rest) s
    = Ok None (noted false 516 (set_depth d (set_fwd false s))).
Proof.
  intros C n s l w1 w2 rest Hl H1 H2 Hr Hn Hv.
  assert (Hw : writes (Single (Leaf NoSign (Num l))) (literal_text l)).
  { constructor. apply (W_leaf NoSign [] (Num l)); [assumption|constructor|reflexivity]. }
  pose proof (c01_left_to_right C n s (fun _ => None) _ _ w1 w2 rest Hw H1 H2 Hr ltac:(simpl; lia) ltac:(simpl; lia)
    ltac:(intros m K; destruct K)) as H.
  rewrite literal_answer in H. replace (literal_number l <=? 4294967295) with false in H by lia. exact H.
Qed.

(** A misspelt number anywhere a value may stand is an error. *)
Theorem c03_bad_digit_partial : forall C n s t code w rest,
  misspelt t code -> Forall UtilsSpec.blank w -> ~ letter_or_digit (hd 0 rest) -> (0 < n)%nat ->
  parse_num (knot C n) (w ++ t ++ rest) s = Ok None (noted false code (set_depth 1 (set_fwd false s))).
Proof.
  intros C n s t code w rest H Hw Hr Hn. destruct n as [|n]; [lia|].
  assert (Ha : apart rest).
  { unfold apart. destruct (isalnum (hd0 rest)) eqn:E; [|reflexivity]. apply letter_alnum in E. destruct rest; now elim Hr. }
  assert (Ht : exists c q, t = c :: q /\ (c = 36 \/ c = 37 \/ isdigit c = true)).
  { assert (G : forall run x, digit_of 10 (hd 0 (run ++ [x])) -> exists c q, run ++ [x] = c :: q /\ (c = 36 \/ c = 37 \/ isdigit c = true)).
    { intros run x D. destruct run as [|c run]; simpl in *; eexists; eexists; (split; [reflexivity|]); right; right; now apply digit10. }
    assert (G' : forall run x, digit_of 10 (hd 0 run) -> exists c q, run ++ [x] = c :: q /\ (c = 36 \/ c = 37 \/ isdigit c = true)).
    { intros run x D. apply G. destruct run; [|assumption]. simpl in D. apply digit10 in D. discriminate. }
    inversion H; subst; eauto 6. }
  destruct Ht as (c & q & -> & Hc).
  assert (F : ~ UtilsSpec.blank c /\ c <> 126 /\ c <> 45 /\ c <> 43 /\ c <> 40).
  { unfold UtilsSpec.blank, isdigit in *. lia. }
  destruct F as (F1 & F2 & F3 & F4 & F5).
  unfold parse_num. cbn [knot f_full]. rewrite bind_upd. unfold parse_num_full, bind at 1. rewrite bind_upd.
  rewrite bind_get, bind_upd. cbn [s_depth set_fwd set_depth]. change (RECURSION_LIMIT <? 0 + 1) with false. cbv beta iota zeta.
  rewrite (skip_blanks w ((c :: q) ++ rest) c (q ++ rest) Hw eq_refl F1). cbn [app].
  set (s1 := set_depth (0 + 1) _).
  assert (E : num_loop C (knot C n) (S (length (c :: q ++ rest))) 0 0 M_NONE None (c :: q ++ rest) s1
    = Ok None (noted false code s1)).
  { cbn [num_loop]. unfold unary. cbn [hd0]. replace (c =? 126) with false by lia. replace (c =? 45) with false by lia.
    replace (c =? 43) with false by lia. cbn [orb andb]. cbv beta iota. cbn [hd0]. replace (c =? 40) with false by lia.
    rewrite (bind_ok _ _ s1 None (noted false code s1)); [reflexivity|].
    exact (misspelt_single C (knot C n) (c :: q) code rest s1 H Ha). }
  rewrite E. destruct s. reflexivity.
Qed.
(** But a base prefix of C is let through after $ and before h. *)
Theorem c03_bad_digit_refuted : ~ (forall C n s run, Forall letter_or_digit run -> digit_of 16 (hd 0 run) ->
  ~ Forall (digit_of 16) run -> (0 < n)%nat ->
  exists code s', parse_num (knot C n) (36 :: run) s = Ok None (noted false code s')).
Proof.
  intros H. specialize (H (mkconf (world_of []) args0) 1%nat blank (zs "0x10")).
  destruct H as (code & s' & E).
  - match goal with |- Forall ?P ?l => let v := eval vm_compute in l in change (Forall P v) end.
    repeat (apply Forall_cons; [unfold letter_or_digit; lia|]). apply Forall_nil.
  - exists 0. split; [reflexivity|lia].
  - intros H. inversion H as [|a b _ Hb]. inversion Hb as [|a' b' (d & Ex & _) _]. discriminate.
  - lia.
  - vm_compute in E. discriminate.
Qed.
Example c03_case :
  misspelt (zs "$1G") 513 /\ misspelt (zs "12a") 512 /\ literal_ok (HexSuffix (zs "0Fe") 104) /\
  assemble 60 [] (prog [" .dw $1G"]%string) = Some (3, None, [513]) /\
  assemble 60 [] (prog [" .dw 12a"]%string) = Some (3, None, [512]) /\
  assemble 60 [] (prog [" .dw %102"]%string) = Some (3, None, [514]) /\
  assemble 60 [] (prog [" .dw 4294967296"]%string) = Some (3, None, [516]) /\
  assemble 60 [] (prog [" .dw $0x10"]%string) = Some (0, Some [16; 0], []) /\
  assemble 60 [] (prog [" .dw 0Feh, $0fE, 00254, 254d, %11111110, 011111110B"]%string)
    = Some (0, Some [254; 0; 254; 0; 254; 0; 254; 0; 254; 0; 254; 0], []).
Proof.
  assert (NG : ~ digit_of 16 71) by (intros (d & E & _); discriminate).
  assert (Na : ~ digit_of 10 97) by (intros (d & E & L); vm_compute in E; injection E as <-; lia).
  split; [|split; [|split; [|repeat split; vm_compute; reflexivity]]].
  - change (misspelt (36 :: [49; 71]) 513). constructor.
    + repeat (apply Forall_cons; [unfold letter_or_digit; lia|]). apply Forall_nil.
    + exists 1. split; [reflexivity|lia].
    + intros H. inversion H as [|a b _ Hb]. inversion Hb. contradiction.
    + intros (x & t & E & _). discriminate.
  - change (misspelt ([49; 50] ++ [97]) 512). apply BadPlain.
    + unfold letter_or_digit. lia.
    + simpl. lia.
    + repeat (apply Forall_cons; [unfold letter_or_digit; lia|]). apply Forall_nil.
    + exists 1. split; [reflexivity|lia].
    + intros H. inversion H as [|a b _ Hb]. inversion Hb as [|a' b' _ Hc]. inversion Hc. contradiction.
  - split; [discriminate|]. split; [digits|]. split; [now right|]. exists 0. split; [reflexivity|lia].
Qed.

(** Twenty parentheses and more are rejected, whatever follows: the depth never grows further. *)
Theorem c04_too_deep : forall C n s ws rest,
  (20 <= length ws)%nat -> Forall (Forall UtilsSpec.blank) ws -> (20 < n)%nat ->
  exists s', parse_num (knot C n) (flat_map (fun w => w ++ [40]) ws ++ rest) s = Ok None (noted false 277 s') /\
    s' = set_depth 21 (set_fwd false s).
Proof.
  intros C n s ws rest Hl Hw Hn.
  assert (G : forall k d depth ws, Z.of_nat k + d = 20 -> 0 <= d -> (k <= length ws)%nat -> Forall (Forall UtilsSpec.blank) ws ->
    forall m s, (k < m)%nat -> s_depth s = d ->
    f_full (knot C m) (flat_map (fun w => w ++ [40]) ws ++ rest) depth s
      = Ok None (noted false 277 (set_depth 21 (set_fwd false s)))).
  { clear. induction k as [|k IH]; intros d depth ws Hd Hd0 Hl Hw m s Hm Hs.
    - destruct m as [|m]; [lia|]. cbn [knot f_full]. unfold parse_num_full. rewrite bind_upd, bind_get, bind_upd.
      cbn [s_depth set_fwd]. replace (RECURSION_LIMIT <? s_depth s + 1) with true by (unfold RECURSION_LIMIT; lia).
      replace (s_depth s + 1) with 21 by lia. reflexivity.
    - destruct m as [|m]; [lia|]. destruct ws as [|w ws]; [simpl in Hl; lia|]. simpl in Hl. inversion Hw as [|? ? Hw1 Hw2]; subst.
      cbn [knot f_full]. unfold parse_num_full. rewrite bind_upd, bind_get, bind_upd.
      cbn [s_depth set_fwd]. replace (RECURSION_LIMIT <? s_depth s + 1) with false by (unfold RECURSION_LIMIT; lia).
      cbn [flat_map]. rewrite <- !app_assoc. cbn [app].
      rewrite (skip_blanks w (40 :: flat_map (fun w => w ++ [40]) ws ++ rest) 40 _ Hw1 eq_refl); [|unfold UtilsSpec.blank; lia].
      cbv zeta. set (s1 := set_depth _ _).
      assert (E : num_loop C (knot C m) (S (length (40 :: flat_map (fun w => w ++ [40]) ws ++ rest))) depth 0 M_NONE None
        (40 :: flat_map (fun w => w ++ [40]) ws ++ rest) s1 = Ok None (noted false 277 (set_depth 21 (set_fwd false s1)))).
      { cbn [num_loop]. unfold unary. cbn [hd0 hd1]. change (40 =? 126) with false. change (40 =? 45) with false.
        change (40 =? 43) with false. cbn [orb andb]. cbv beta iota. cbn [hd0 tl]. change (40 =? 40) with true. cbv beta iota.
        rewrite bind_assoc. rewrite (bind_ok _ _ s1 None (noted false 277 (set_depth 21 (set_fwd false s1)))); [reflexivity|].
        apply (IH (s_depth s + 1)); try lia; [assumption|]. subst s1. reflexivity. }
      rewrite E. subst s1. destruct s. reflexivity. }
  eexists. split; [|reflexivity]. unfold parse_num. rewrite bind_upd.
  rewrite (bind_ok _ _ (set_depth 0 s) None (noted false 277 (set_depth 21 (set_fwd false (set_depth 0 s))))).
  - destruct s. reflexivity.
  - apply (G 20%nat 0); auto; lia.
Qed.
Print Assumptions c01_left_to_right.
Print Assumptions c02_no_undefined_division.
Print Assumptions c02_division_reported.
Print Assumptions c02_only_overflow.
Print Assumptions c03_literal_value.
Print Assumptions c03_digits_exist.
Print Assumptions c03_overflow.
Print Assumptions c03_bad_digit_partial.
Print Assumptions c03_bad_digit_refuted.
Print Assumptions c04_too_deep.
