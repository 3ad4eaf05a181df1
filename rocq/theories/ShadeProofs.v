(** The rounding errors of the luminance computation of bitmap.cpp, bounded in integer arithmetic. *)
From Coq Require Import Floats.SpecFloat.
From Verif Require Import Base BaseProofs BitmapModel.

(** A double as an integer multiple of 2^-1200. *)
Definition fval (x : spec_float) : Z :=
  match x with S754_finite s m e => (if s then -1 else 1) * (Z.pos m * 2 ^ (e + 1200)) | _ => 0 end.
Definition fin (x : spec_float) : Prop :=
  match x with S754_zero _ => True | S754_finite _ m e => -1140 <= e | _ => False end.
Definition real (x : spec_float) : Prop := match x with S754_zero _ => True | S754_finite _ _ e => -1199 <= e | _ => False end.
Definition finb (x : spec_float) : bool :=
  match x with S754_zero _ => true | S754_finite _ m e => -1140 <=? e | _ => false end.
Lemma finb_fin x : finb x = true -> fin x.
Proof. destruct x; cbn; try discriminate; auto. lia. Qed.

Lemma digits_log m : Z.pos (digits2_pos m) = Z.log2 (Z.pos m) + 1.
Proof.
  induction m as [p IH|p IH|]; [| |reflexivity]; cbn [digits2_pos]; rewrite Pos2Z.inj_succ, IH.
  - rewrite Pos2Z.inj_xI, Z.log2_succ_double by lia. lia.
  - rewrite Pos2Z.inj_xO, Z.log2_double by lia. lia.
Qed.
Lemma shr_half x : 0 <= shr_m x -> shr_m (shr_1 x) = shr_m x / 2.
Proof.
  destruct x as [m r s]; cbn. destruct m as [|[p|p|]|p]; intros H; cbn; try lia.
Qed.
Lemma shr_many n : forall x, 0 <= shr_m x -> shr_m (SpecFloat.iter_pos shr_1 n x) = shr_m x / 2 ^ Z.pos n.
Proof.
  assert (N : forall n x, 0 <= shr_m x -> 0 <= shr_m x / 2 ^ Z.pos n) by (intros; apply Z.div_pos; lia).
  induction n as [n IH|n IH|]; intros x H; cbn [SpecFloat.iter_pos].
  - assert (H1 : 0 <= shr_m (shr_1 x)) by (rewrite shr_half by exact H; apply Z.div_pos; lia).
    assert (H2 : 0 <= shr_m (SpecFloat.iter_pos shr_1 n (shr_1 x))) by (rewrite IH by exact H1; now apply N).
    rewrite (IH _ H2), (IH _ H1), (shr_half _ H). rewrite Pos2Z.inj_xI, !Z.div_div by lia. f_equal.
    replace (2 * Z.pos n + 1) with (1 + Z.pos n + Z.pos n) by lia. rewrite !Z.pow_add_r by lia. change (2 ^ 1) with 2. lia.
  - assert (H2 : 0 <= shr_m (SpecFloat.iter_pos shr_1 n x)) by (rewrite IH by exact H; now apply N).
    rewrite (IH _ H2), (IH _ H). rewrite Pos2Z.inj_xO, Z.div_div by lia. f_equal. rewrite <- Z.pow_add_r by lia. f_equal. lia.
  - rewrite shr_half by exact H. reflexivity.
Qed.

(** ** Rounding *)
Lemma pow_split a b : 0 <= a -> 0 <= b -> 2 ^ (a + b) = 2 ^ a * 2 ^ b. Proof. intros. now apply Z.pow_add_r. Qed.
Lemma sign_abs (s : bool) a b : Z.abs ((if s then -1 else 1) * a - (if s then -1 else 1) * b) = Z.abs (a - b).
Proof. destruct s; lia. Qed.
Lemma abs_tri a b c d1 d2 d : Z.abs (a - b) <= d1 -> Z.abs (b - c) <= d2 -> d1 + d2 <= d -> Z.abs (a - c) <= d.
Proof. lia. Qed.
Definition err : Z := 2 ^ 1160.
Lemma round_err sx m e : -1199 <= e -> Z.pos m * 2 ^ (e + 1200) < 2 ^ 1210 -> forall x, x = binary_round_aux 53 1024 sx (Z.pos m) e loc_Exact ->
  real x /\ (-1140 <= e -> fin x) /\ Z.abs (fval x - (if sx then -1 else 1) * (Z.pos m * 2 ^ (e + 1200))) <= err.
Proof.
  intros He Hm x Hx. unfold binary_round_aux, shr_fexp in Hx. change (shr_record_of_loc (Z.pos m) loc_Exact) with (Build_shr_record (Z.pos m) false false) in Hx.
  cbn [Zdigits2] in Hx. pose proof (Z.log2_spec (Z.pos m) ltac:(lia)) as L. pose proof (digits_log m) as D. set (d := Z.pos (digits2_pos m)) in *.
  assert (Hde : d + e <= 10).
  { apply Z.nlt_ge. intros K. assert (2 ^ 1210 <= Z.pos m * 2 ^ (e + 1200)); [|lia].
    transitivity (2 ^ (d - 1) * 2 ^ (e + 1200)); [rewrite <- pow_split by lia; apply Z.pow_le_mono_r; lia|].
    apply Z.mul_le_mono_nonneg_r; [apply Z.pow_nonneg; lia|]. replace (d - 1) with (Z.log2 (Z.pos m)) by lia. lia. }
  unfold fexp at 1, emin at 1 in Hx. set (e1 := Z.max (d + e - 53) (3 - 1024 - 53)) in Hx.
  assert (Ee : 0 < err) by (unfold err; apply Z.pow_pos_nonneg; lia).
  destruct (e1 - e) as [|n|n] eqn:En; cbn [shr shr_m loc_of_shr_record round_nearest_even] in Hx.
  - unfold fexp, emin in Hx. cbn [Zdigits2] in Hx. fold d in Hx. fold e1 in Hx. rewrite En in Hx. cbn [shr shr_m shr_record_of_loc] in Hx. 
    replace (e <=? 1024 - 53) with true in Hx by lia. subst x. split; [cbn; lia|split; [intros; cbn; lia|]]. cbn [fval]. destruct sx; lia.
  - assert (Hn : e1 = e + Z.pos n) by lia. assert (He1 : -1074 <= e1 <= -43) by lia.
    rewrite <- Hn in Hx. set (r := SpecFloat.iter_pos shr_1 n _) in Hx. assert (Q : shr_m r = Z.pos m / 2 ^ Z.pos n) by (unfold r; now rewrite shr_many).
    assert (Q0 : 0 <= shr_m r) by (rewrite Q; apply Z.div_pos; lia).
    set (m1 := round_nearest_even (shr_m r) (loc_of_shr_record r)) in Hx.
    assert (M1 : shr_m r <= m1 <= shr_m r + 1) by (unfold m1, round_nearest_even; destruct (loc_of_shr_record r) as [|[]]; try lia; destruct (Z.even _); lia).
    assert (Pn : 0 < 2 ^ Z.pos n) by (apply Z.pow_pos_nonneg; lia).
    assert (E1 : Z.abs (m1 * 2 ^ Z.pos n - Z.pos m) <= 2 ^ Z.pos n).
    { pose proof (Z.div_mod (Z.pos m) (2 ^ Z.pos n) ltac:(lia)). pose proof (Z.mod_pos_bound (Z.pos m) (2 ^ Z.pos n) Pn). rewrite <- Q in H. nia. }
    assert (Pe : 0 < 2 ^ (e + 1200)) by (apply Z.pow_pos_nonneg; lia).
    assert (P1 : 2 ^ (e1 + 1200) = 2 ^ Z.pos n * 2 ^ (e + 1200)) by (rewrite <- pow_split by lia; f_equal; lia).
    assert (E2 : Z.abs (m1 * 2 ^ (e1 + 1200) - Z.pos m * 2 ^ (e + 1200)) <= 2 ^ (e1 + 1200)) by (rewrite P1; nia).
    assert (B1 : 2 ^ (e1 + 1200) <= 2 ^ 1157) by (apply Z.pow_le_mono_r; lia).
    assert (Eb : 8 * 2 ^ 1157 = err) by (unfold err; change 1160 with (3 + 1157); rewrite pow_split by lia; reflexivity).
    destruct m1 as [|q|q] eqn:Em; [|destruct (fexp 53 1024 (Zdigits2 (Z.pos q) + e1) - e1) as [|k|k] eqn:Ek|lia].
    + unfold fexp, emin in Hx. cbn [Zdigits2] in Hx. replace (Z.max (0 + e1 - 53) (3 - 1024 - 53) - e1) with (Z.max (-53) (-1074 - e1)) in Hx by lia.
      destruct (Z.max (-53) (-1074 - e1)) eqn:Ex; [|lia|]; cbn [shr shr_m shr_record_of_loc] in Hx; subst x; (split; [exact I|split; [intros; exact I|]]); cbn [fval]; destruct sx; lia.
    + cbn [shr shr_m shr_record_of_loc] in Hx. replace (e1 <=? 1024 - 53) with true in Hx by lia. subst x. split; [cbn; lia|split; [intros; cbn; lia|]]. cbn [fval]. destruct sx; lia.
    + cbn [shr] in Hx. set (r2 := SpecFloat.iter_pos shr_1 k _) in Hx. assert (Q2 : shr_m r2 = Z.pos q / 2 ^ Z.pos k) by (unfold r2; now rewrite shr_many).
      unfold fexp, emin in Ek. cbn [Zdigits2] in Ek. pose proof (digits_log q) as D2. pose proof (Z.log2_spec (Z.pos q) ltac:(lia)) as L2.
      assert (Hq : Z.pos (digits2_pos q) + e1 <= 11).
      { apply Z.nlt_ge. intros K. assert (2 ^ 1211 <= Z.pos q * 2 ^ (e1 + 1200)).
        { transitivity (2 ^ (Z.pos (digits2_pos q) - 1) * 2 ^ (e1 + 1200)); [rewrite <- pow_split by lia; apply Z.pow_le_mono_r; lia|].
          apply Z.mul_le_mono_nonneg_r; [apply Z.pow_nonneg; lia|]. replace (Z.pos (digits2_pos q) - 1) with (Z.log2 (Z.pos q)) by lia. lia. }
        assert (2 ^ 1211 = 2 ^ 1210 + 2 ^ 1210) by (change 1211 with (1 + 1210); rewrite pow_split by lia; change (2 ^ 1) with 2; lia).
        assert (2 ^ 1157 <= 2 ^ 1210) by (apply Z.pow_le_mono_r; lia). lia. }
      set (e2 := e1 + Z.pos k) in *. assert (He2 : -1074 <= e2 <= -42) by lia.
      assert (Pk : 0 < 2 ^ Z.pos k) by (apply Z.pow_pos_nonneg; lia).
      assert (P2 : 2 ^ (e2 + 1200) = 2 ^ Z.pos k * 2 ^ (e1 + 1200)) by (rewrite <- pow_split by lia; f_equal; lia).
      assert (Pe1 : 0 < 2 ^ (e1 + 1200)) by (apply Z.pow_pos_nonneg; lia).
      assert (E3 : Z.abs (shr_m r2 * 2 ^ Z.pos k - Z.pos q) <= 2 ^ Z.pos k).
      { pose proof (Z.div_mod (Z.pos q) (2 ^ Z.pos k) ltac:(lia)). pose proof (Z.mod_pos_bound (Z.pos q) (2 ^ Z.pos k) Pk). rewrite <- Q2 in H. nia. }
      assert (E4 : Z.abs (shr_m r2 * 2 ^ (e2 + 1200) - Z.pos q * 2 ^ (e1 + 1200)) <= 2 ^ (e2 + 1200)) by (rewrite P2; nia).
      assert (B2 : 2 ^ (e2 + 1200) <= 2 * 2 ^ 1157) by (change 2 with (2 ^ 1) at 2; rewrite <- pow_split by lia; apply Z.pow_le_mono_r; lia).
      assert (Q3 : 0 <= shr_m r2) by (rewrite Q2; apply Z.div_pos; lia).
      destruct (shr_m r2) as [|w|w]; [| |lia].
      * subst x. split; [exact I|split; [intros; exact I|]]. cbn [fval]. replace 0 with ((if sx then -1 else 1) * (0 * 2 ^ (e2 + 1200))) by (destruct sx; reflexivity).
        rewrite sign_abs. eapply abs_tri; [exact E4|exact E2|clear - Eb B1 B2; lia].
      * replace (e2 <=? 1024 - 53) with true in Hx by (clear - He2; lia). subst x. split; [cbn; clear - He2; lia|split; [intros; cbn; clear - He2; lia|]]. cbn [fval].
        rewrite sign_abs. eapply abs_tri; [exact E4|exact E2|clear - Eb B1 B2; lia].
    + cbn [shr shr_m shr_record_of_loc] in Hx. replace (e1 <=? 1024 - 53) with true in Hx by lia. subst x. split; [cbn; lia|split; [intros; cbn; lia|]]. cbn [fval]. destruct sx; lia.
  - unfold fexp, emin in Hx. cbn [Zdigits2] in Hx. fold d in Hx. fold e1 in Hx. rewrite En in Hx. cbn [shr shr_m shr_record_of_loc] in Hx. 
    replace (e <=? 1024 - 53) with true in Hx by lia. subst x. split; [cbn; lia|split; [intros; cbn; lia|]]. cbn [fval]. destruct sx; lia.
Qed.
(** ** The operations *)
Definition in_range (z : Z) : Prop := Z.abs z < 2 ^ 1210.
Lemma shift_val d m : Z.pos (shift_pos d m) = Z.pos m * 2 ^ Z.pos d.
Proof. rewrite shift_pos_correct. apply Z.mul_comm. Qed.
Lemma align_val m e z : z <= e -> -1200 <= z -> Z.pos (fst (shl_align m e z)) * 2 ^ (z + 1200) = Z.pos m * 2 ^ (e + 1200).
Proof.
  intros H1 H2. unfold shl_align. destruct (z - e) as [|d|d] eqn:E; [|lia|].
  - cbn [fst]. now replace z with e by lia.
  - cbn [fst]. rewrite shift_val. rewrite <- Z.mul_assoc, <- pow_split by lia. do 2 f_equal. lia.
Qed.
Lemma round_aligned sx m e : -1140 <= e -> Z.pos m * 2 ^ (e + 1200) < 2 ^ 1210 ->
  fin (binary_round 53 1024 sx m e) /\ Z.abs (fval (binary_round 53 1024 sx m e) - (if sx then -1 else 1) * (Z.pos m * 2 ^ (e + 1200))) <= err.
Proof.
  intros He Hm. unfold binary_round. set (z := fexp 53 1024 _). assert (Hz : -1074 <= z) by (unfold z, fexp, emin; lia).
  destruct (Z.le_gt_cases z e) as [L|L].
  - pose proof (align_val m e z L ltac:(lia)) as A. unfold shl_align in *. destruct (z - e) as [|d|d] eqn:E; cbn [fst] in A.
    + destruct (round_err sx m e ltac:(lia) Hm _ eq_refl) as (_ & K1 & K2). auto.
    + lia.
    + rewrite <- A in Hm |- *. destruct (round_err sx _ z ltac:(lia) Hm _ eq_refl) as (_ & K1 & K2). split; [apply K1; lia|exact K2].
  - unfold shl_align. destruct (z - e) as [|d|d] eqn:E; [lia| |lia].
    destruct (round_err sx m e ltac:(lia) Hm _ eq_refl) as (_ & K1 & K2). auto.
Qed.
Lemma normalize_err m e : -1140 <= e -> in_range (m * 2 ^ (e + 1200)) ->
  fin (binary_normalize 53 1024 m e false) /\ Z.abs (fval (binary_normalize 53 1024 m e false) - m * 2 ^ (e + 1200)) <= err.
Proof.
  intros He Hm. unfold in_range in Hm. assert (Pe : 0 < 2 ^ (e + 1200)) by (apply Z.pow_pos_nonneg; lia).
  assert (Ee : 0 < err) by (unfold err; apply Z.pow_pos_nonneg; lia).
  destruct m as [|m|m]; cbn [binary_normalize].
  - split; [exact I|]. cbn [fval]. lia.
  - rewrite Z.abs_eq in Hm by lia. destruct (round_aligned false m e He Hm) as (K1 & K2). split; [exact K1|]. now rewrite Z.mul_1_l in K2.
  - replace (Z.abs (Z.neg m * 2 ^ (e + 1200))) with (Z.pos m * 2 ^ (e + 1200)) in Hm by (rewrite Z.abs_mul; rewrite (Z.abs_eq (2 ^ (e + 1200))) by lia; reflexivity).
    destruct (round_aligned true m e He Hm) as (K1 & K2). split; [exact K1|]. replace (Z.neg m * 2 ^ (e + 1200)) with (-1 * (Z.pos m * 2 ^ (e + 1200))); [exact K2|].
    change (Z.neg m) with (- Z.pos m). ring.
Qed.
Lemma signed_align s m e z : z <= e -> -1200 <= z ->
  cond_Zopp s (Z.pos (fst (shl_align m e z))) * 2 ^ (z + 1200) = (if s then -1 else 1) * (Z.pos m * 2 ^ (e + 1200)).
Proof. intros H1 H2. rewrite <- (align_val m e z H1 H2). destruct s; cbn [cond_Zopp]; ring. Qed.
Lemma add_err x y : fin x -> fin y -> in_range (fval x + fval y) ->
  fin (d_add x y) /\ Z.abs (fval (d_add x y) - (fval x + fval y)) <= err.
Proof.
  assert (Ee : 0 < err) by (unfold err; apply Z.pow_pos_nonneg; lia).
  intros Fx Fy H. destruct x as [sx|sx| |sx mx ex]; try easy; destruct y as [sy|sy| |sy my ey]; try easy; unfold d_add, SFadd.
  - destruct (Bool.eqb sx sy); (split; [exact I|cbn; lia]).
  - split; [exact Fy|]. cbn [fval] in *. lia.
  - split; [exact Fx|]. cbn [fval] in *. lia.
  - cbv zeta. cbn [fin] in Fx, Fy. set (z := Z.min ex ey). assert (z <= ex /\ z <= ey /\ -1140 <= z) by lia.
    cbn [fval] in H. rewrite <- (signed_align sx mx ex z), <- (signed_align sy my ey z) in H by lia.
    replace (fval (S754_finite sx mx ex) + fval (S754_finite sy my ey)) with
      ((cond_Zopp sx (Z.pos (fst (shl_align mx ex z))) + cond_Zopp sy (Z.pos (fst (shl_align my ey z)))) * 2 ^ (z + 1200)).
    + apply normalize_err; [lia|]. unfold in_range in *. rewrite Z.mul_add_distr_r. exact H.
    + rewrite Z.mul_add_distr_r, !signed_align by lia. reflexivity.
Qed.
Lemma sub_err x y : fin x -> fin y -> in_range (fval x - fval y) ->
  fin (d_sub x y) /\ Z.abs (fval (d_sub x y) - (fval x - fval y)) <= err.
Proof.
  assert (Ee : 0 < err) by (unfold err; apply Z.pow_pos_nonneg; lia).
  intros Fx Fy H. destruct x as [sx|sx| |sx mx ex]; try easy; destruct y as [sy|sy| |sy my ey]; try easy; unfold d_sub, SFsub.
  - destruct (Bool.eqb sx (negb sy)); (split; [exact I|cbn; lia]).
  - split; [exact Fy|]. cbn [fval] in *. destruct sy; cbn [negb]; lia.
  - split; [exact Fx|]. cbn [fval] in *. lia.
  - cbv zeta. cbn [fin] in Fx, Fy. set (z := Z.min ex ey). assert (z <= ex /\ z <= ey /\ -1140 <= z) by lia.
    cbn [fval] in H. rewrite <- (signed_align sx mx ex z), <- (signed_align sy my ey z) in H by lia.
    replace (fval (S754_finite sx mx ex) - fval (S754_finite sy my ey)) with
      ((cond_Zopp sx (Z.pos (fst (shl_align mx ex z))) - cond_Zopp sy (Z.pos (fst (shl_align my ey z)))) * 2 ^ (z + 1200)).
    + apply normalize_err; [lia|]. unfold in_range in *. rewrite Z.mul_sub_distr_r. exact H.
    + rewrite Z.mul_sub_distr_r, !signed_align by lia. reflexivity.
Qed.
Lemma mul_err k x : 1 <= k <= 6 -> fin x -> in_range (fval x * 2 ^ k) ->
  real (d_mul x (of_int (2 ^ k))) /\
  Z.abs (fval (d_mul x (of_int (2 ^ k))) - fval x * 2 ^ k) <= err.
Proof.
  assert (Ee : 0 < err) by (unfold err; apply Z.pow_pos_nonneg; lia).
  intros Hk Fx H. assert (K : of_int (2 ^ k) = S754_finite false (2 ^ 52)%positive (k - 52)).
  { assert (k = 1 \/ k = 2 \/ k = 3 \/ k = 4 \/ k = 5 \/ k = 6) as [->|[->|[->|[->|[->| ->]]]]] by lia; vm_compute; reflexivity. }
  rewrite K. destruct x as [s|s| |s m e]; try contradiction; unfold d_mul, SFmul.
  - split; [exact I|]. cbn [fval]. lia.
  - cbn [fin] in Fx. rewrite xorb_false_r.
    assert (V : Z.pos (m * 2 ^ 52) * 2 ^ (e + (k - 52) + 1200) = Z.pos m * 2 ^ (e + 1200) * 2 ^ k).
    { rewrite Pos2Z.inj_mul. change (Z.pos (2 ^ 52)) with (2 ^ 52). rewrite <- !Z.mul_assoc, <- !pow_split by lia. do 2 f_equal. lia. }
    assert (Pm : 0 < Z.pos m * 2 ^ (e + 1200) * 2 ^ k) by (rewrite <- Z.mul_assoc; apply Z.mul_pos_pos; [lia|]; apply Z.mul_pos_pos; apply Z.pow_pos_nonneg; lia).
    assert (Hr : Z.pos (m * 2 ^ 52) * 2 ^ (e + (k - 52) + 1200) < 2 ^ 1210).
    { rewrite V. unfold in_range in H. cbn [fval] in H. destruct s; lia. }
    destruct (round_err s (m * 2 ^ 52) (e + (k - 52)) ltac:(lia) Hr _ eq_refl) as (K0 & _ & K2).
    rewrite V in K2. split; [exact K0|]. replace (fval (S754_finite s m e) * 2 ^ k) with ((if s then -1 else 1) * (Z.pos m * 2 ^ (e + 1200) * 2 ^ k)) by (cbn [fval]; ring). exact K2.
Qed.

(** ** The shade of a colour *)
Lemma table_err : forallb (fun i => let v := Z.of_nat i in
    let ok k c := finb (d_mul k (of_int v)) && (Z.abs (fval (d_mul k (of_int v)) * 2550000 - c * v * 2 ^ 1200) <=? 2550000 * err) in
    ok k_red 2126 && ok k_green 7152 && ok k_blue 722) (seq 0 256) = true.
Proof. vm_compute. reflexivity. Qed.
Lemma white_err : finb (dbl 8917127262193582 (-53)) && (Z.abs (fval (dbl 8917127262193582 (-53)) * 2550000 - 2524500 * 2 ^ 1200) <=? 2550000 * err) = true.
Proof. vm_compute. reflexivity. Qed.
Lemma table_at k c v : In (k, c) [(k_red, 2126); (k_green, 7152); (k_blue, 722)] -> is_byte v ->
  fin (d_mul k (of_int v)) /\ Z.abs (fval (d_mul k (of_int v)) * 2550000 - c * v * 2 ^ 1200) <= 2550000 * err.
Proof.
  intros H Hv. pose proof table_err as T. rewrite forallb_forall in T. specialize (T (Z.to_nat v)). cbv zeta in T. unfold is_byte in Hv.
  rewrite Z2Nat.id in T by lia. assert (I : In (Z.to_nat v) (seq 0 256)) by (apply in_seq; lia). specialize (T I).
  apply andb_true_iff in T as (T & T3). apply andb_true_iff in T as (T1 & T2).
  destruct H as [E|[E|[E|[]]]]; pose proof (f_equal fst E) as Ek; pose proof (f_equal snd E) as Ec; cbn [fst snd] in Ek, Ec; rewrite <- Ek, <- Ec; clear E Ek Ec.
  - apply andb_true_iff in T1 as (A & B). split; [now apply finb_fin|now apply Z.leb_le].
  - apply andb_true_iff in T2 as (A & B). split; [now apply finb_fin|now apply Z.leb_le].
  - apply andb_true_iff in T3 as (A & B). split; [now apply finb_fin|now apply Z.leb_le].
Qed.
Lemma trunc_val x : real x -> d_trunc x = Some (Z.quot (fval x) (2 ^ 1200)).
Proof.
  assert (P : 0 < 2 ^ 1200) by (apply Z.pow_pos_nonneg; lia).
  destruct x as [s|s| |s m e]; cbn [real d_trunc fval]; try contradiction.
  - intros _. now rewrite Z.quot_0_l by lia.
  - intros He. f_equal. assert (K : (if 0 <=? e then Z.pos m * 2 ^ e else Z.pos m / 2 ^ (- e)) = Z.pos m * 2 ^ (e + 1200) / 2 ^ 1200).
    { destruct (Z.leb_spec 0 e).
      - rewrite pow_split, Z.mul_assoc, Z.div_mul by lia. reflexivity.
      - assert (2 ^ 1200 = 2 ^ (- e) * 2 ^ (e + 1200)) as -> by (rewrite <- pow_split by lia; f_equal; lia).
        rewrite Z.div_mul_cancel_r; [reflexivity| |]; apply Z.pow_nonzero; lia. }
    rewrite K. assert (0 <= Z.pos m * 2 ^ (e + 1200)) by (apply Z.mul_nonneg_nonneg; [lia|apply Z.pow_nonneg; lia]).
    destruct s.
    + rewrite <- Z.quot_div_nonneg by lia. rewrite <- Z.quot_opp_l by lia. f_equal; lia.
    + rewrite Z.mul_1_l. symmetry. apply Z.quot_div_nonneg; lia.
Qed.

Definition lum (q : rgb) : Z := 2126 * q_red q + 7152 * q_green q + 722 * q_blue q.
Lemma shade_is k q : 1 <= k <= 6 -> is_byte (q_red q) -> is_byte (q_green q) -> is_byte (q_blue q) ->
  let n := (2524500 - lum q) * 2 ^ k in
  n <= 0 \/ n mod 2550000 <> 0 -> shade (2 ^ k) q = Some (Z.max 0 (n / 2550000)).
Proof.
  intros Hk Hr Hg Hb n Hn. unfold is_byte in *.
  assert (P : 2 ^ 1200 = 2 ^ 40 * err) by (unfold err; rewrite <- pow_split by lia; reflexivity).
  assert (P2 : 2 ^ 1210 = 2 ^ 50 * err) by (unfold err; rewrite <- pow_split by lia; reflexivity).
  assert (Ee : 0 < err) by (unfold err; apply Z.pow_pos_nonneg; lia).
  destruct (table_at k_red 2126 (q_red q) (or_introl eq_refl) Hr) as (F1 & E1).
  destruct (table_at k_green 7152 (q_green q) (or_intror (or_introl eq_refl)) Hg) as (F2 & E2).
  destruct (table_at k_blue 722 (q_blue q) (or_intror (or_intror (or_introl eq_refl))) Hb) as (F3 & E3).
  pose proof white_err as W. apply andb_true_iff in W as (F4 & E4). apply finb_fin in F4. apply Z.leb_le in E4.
  rewrite P in E1, E2, E3, E4. unfold shade. unfold luminance.
  set (a := d_mul k_red (of_int (q_red q))) in *. set (b := d_mul k_green (of_int (q_green q))) in *. set (c := d_mul k_blue (of_int (q_blue q))) in *.
  set (w := dbl 8917127262193582 (-53)) in *. change (2 ^ 40) with 1099511627776 in *. change (2 ^ 50) with 1125899906842624 in *.
  unfold lum in n. apply Z.abs_le in E1, E2, E3, E4.
  assert (G1 : 0 <= q_red q * err <= 255 * err) by (clear - Hr Ee; nia).
  assert (G2 : 0 <= q_green q * err <= 255 * err) by (clear - Hg Ee; nia).
  assert (G3 : 0 <= q_blue q * err <= 255 * err) by (clear - Hb Ee; nia).
  destruct (add_err a b F1 F2) as (F5 & E5); [apply Z.abs_lt; rewrite P2; clear - Ee E1 E2 G1 G2; lia|]. apply Z.abs_le in E5.
  destruct (add_err (d_add a b) c F5 F3) as (F6 & E6); [apply Z.abs_lt; rewrite P2; clear - Ee E1 E2 E3 E5 G1 G2 G3; lia|]. apply Z.abs_le in E6.
  destruct (sub_err w (d_add (d_add a b) c) F4 F6) as (F7 & E7); [apply Z.abs_lt; rewrite P2; clear - Ee E1 E2 E3 E4 E5 E6 G1 G2 G3; lia|]. apply Z.abs_le in E7.
  assert (Kk : 2 <= 2 ^ k <= 64).
  { split; [change 2 with (2 ^ 1) at 1|change 64 with (2 ^ 6)]; apply Z.pow_le_mono_r; clear - Hk; lia. }
  set (x := d_sub w (d_add (d_add a b) c)) in *. set (y := fval x) in *.
  assert (E8 : Z.abs (y * 2550000 - (2524500 - (2126 * q_red q + 7152 * q_green q + 722 * q_blue q)) * (1099511627776 * err)) <= 8 * 2550000 * err).
  { apply Z.abs_le. clear - Ee E1 E2 E3 E4 E5 E6 E7. unfold y. lia. }
  destruct (mul_err k x Hk F7) as (F9 & E9).
  { unfold in_range. rewrite P2. fold y. assert (Yb : Z.abs y <= 2 * (1099511627776 * err)) by (clear - E8 Ee G1 G2 G3; lia). rewrite Z.abs_mul, (Z.abs_eq (2 ^ k)) by (clear - Kk; lia).
    apply Z.le_lt_trans with (2 * (1099511627776 * err) * 64); [apply Z.mul_le_mono_nonneg; clear - Yb Kk Ee; lia|clear - Ee; lia]. }
  set (z := d_mul x (of_int (2 ^ k))) in *. rewrite (trunc_val z F9), P. fold y in E9.
  assert (E10 : Z.abs (fval z * 2550000 - n * (1099511627776 * err)) <= 600 * 2550000 * err).
  { assert (A : Z.abs (y * 2 ^ k * 2550000 - n * (1099511627776 * err)) <= 64 * (8 * 2550000 * err)).
    { unfold n. replace (y * 2 ^ k * 2550000 - _) with (2 ^ k * (y * 2550000 - (2524500 - (2126 * q_red q + 7152 * q_green q + 722 * q_blue q)) * (1099511627776 * err))) by ring.
      rewrite Z.abs_mul, (Z.abs_eq (2 ^ k)) by (clear - Kk; lia). apply Z.mul_le_mono_nonneg; clear - E8 Kk Ee; lia. }
    clear - A E9 Ee. lia. }
  assert (Hlo : -1632000 <= n) by (unfold n; clear - Kk Hr Hg Hb; nia).
  assert (Hhi : n <= 2524500 * 64) by (unfold n; clear - Kk Hr Hg Hb; nia).
  clear - Hn E10 Ee Hlo Hhi. set (t := fval z) in *. clearbody t n. set (u := 1099511627776 * err) in *.
  assert (Eu : 600 * 2550000 * err < u) by (unfold u; lia). assert (Pu : 0 < u) by lia. set (d := 600 * 2550000 * err) in *. clearbody u d. clear Ee.
  pose proof (Z.div_mod n 2550000 ltac:(lia)) as D. pose proof (Z.mod_pos_bound n 2550000 ltac:(lia)) as B.
  set (m := n / 2550000) in *. set (r := n mod 2550000) in *. clearbody m r.
  assert (Hq : Z.quot t u = Z.max 0 m).
  { destruct (Z.le_gt_cases n 0) as [N|N].
    - assert (m <= 0) by lia. rewrite Z.max_l by lia. apply Z.quot_small_iff; [lia|]. nia.
    - assert (r <> 0) by (destruct Hn; lia). assert (0 <= m) by lia. rewrite Z.max_r by lia.
      rewrite Z.quot_div_nonneg by nia. symmetry. apply (Z.div_unique t u m (t - u * m)); [|lia]. left. nia. }
  rewrite Hq. replace ((0 <=? Z.max 0 m) && (Z.max 0 m <=? 255)) with true by lia. reflexivity.
Qed.
