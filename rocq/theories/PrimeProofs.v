(** Fermat's little theorem and Pocklington's criterion on Z, and the primality of the two
    factors of the signing key. *)
From Coq Require Import ZArith List Lia Znumtheory Permutation FinFun.
From Verif Require Import Base BaseProofs ExportModel.
Local Open Scope Z_scope.

Lemma powm_pos_spec b e m : 0 < m -> powm_pos b e m = b ^ Zpos e mod m.
Proof.
  intros Hm. induction e as [e IH|e IH|]; cbn [powm_pos].
  - rewrite IH, <- Zmult_mod, Zmult_mod_idemp_l. f_equal.
    rewrite Pos2Z.inj_xI. replace (2 * Z.pos e + 1) with (Z.pos e + Z.pos e + 1) by lia. rewrite !Z.pow_add_r by lia. now rewrite Z.pow_1_r.
  - rewrite IH, <- Zmult_mod. f_equal. rewrite Pos2Z.inj_xO. replace (2 * Z.pos e) with (Z.pos e + Z.pos e) by lia. now rewrite !Z.pow_add_r by lia.
  - now rewrite Z.pow_1_r.
Qed.
Lemma powm_spec b e m : 0 < m -> 0 <= e -> powm b e m = b ^ e mod m.
Proof. intros Hm He. destruct e; [reflexivity|now apply powm_pos_spec|lia]. Qed.

(** * Congruences *)
Definition cong (n a b : Z) : Prop := (n | a - b).
Lemma cong_mod n a b : 0 < n -> cong n a b <-> a mod n = b mod n.
Proof.
  intros Hn. unfold cong. split; intros H.
  - destruct H as (k & H). replace a with (b + k * n) by lia. now rewrite Z.mod_add by lia.
  - apply Zmod_divide; [lia|]. rewrite Zminus_mod, H, Z.sub_diag. reflexivity.
Qed.
Lemma cong_refl n a : cong n a a. Proof. exists 0. lia. Qed.
Lemma cong_sym n a b : cong n a b -> cong n b a. Proof. intros (k & H). exists (- k). lia. Qed.
Lemma cong_trans n a b c : cong n a b -> cong n b c -> cong n a c.
Proof. intros (k & H) (j & K). exists (k + j). lia. Qed.
Lemma cong_mul n a b c d : cong n a b -> cong n c d -> cong n (a * c) (b * d).
Proof. intros (k & H) (j & K). exists (k * c + j * b). replace a with (b + k * n) by lia. replace c with (d + j * n) by lia. ring. Qed.
Lemma cong_add n a b c d : cong n a b -> cong n c d -> cong n (a + c) (b + d).
Proof. intros (k & H) (j & K). exists (k + j). lia. Qed.
Lemma cong_pow n a b e : 0 <= e -> cong n a b -> cong n (a ^ e) (b ^ e).
Proof.
  intros He H. revert e He. apply natlike_ind; [apply cong_refl|]. intros e He IH. rewrite !Z.pow_succ_r by lia. now apply cong_mul.
Qed.
Lemma cong_to_mod n a : 0 < n -> cong n (a mod n) a.
Proof. intros H. apply cong_mod; [lia|]. now rewrite Z.mod_mod by lia. Qed.
Lemma cong_div n m a b : (m | n) -> cong n a b -> cong m a b.
Proof. intros H K. eapply Z.divide_trans; eassumption. Qed.

(** * Fermat *)
Definition prods (l : list Z) : Z := fold_right Z.mul 1 l.
Lemma prods_perm l l' : Permutation l l' -> prods l = prods l'.
Proof. induction 1; simpl; lia. Qed.
Lemma prods_map p a l : 0 < p -> cong p (prods (map (fun x => (a * x) mod p) l)) (a ^ Z.of_nat (length l) * prods l).
Proof.
  intros Hp. induction l as [|x l IH]; [apply cong_refl|].
  cbn [map prods fold_right length]. rewrite Nat2Z.inj_succ, Z.pow_succ_r by lia.
  replace (a * a ^ Z.of_nat (length l) * (x * fold_right Z.mul 1 l)) with ((a * x) * (a ^ Z.of_nat (length l) * prods l)) by (unfold prods; ring).
  apply cong_mul; [now apply cong_to_mod|exact IH].
Qed.
Lemma prods_prime p l : prime p -> Forall (fun x => ~ (p | x)) l -> ~ (p | prods l).
Proof.
  intros Hp. induction 1 as [|x l Hx _ IH]; simpl.
  - intros H. apply Z.divide_1_r_nonneg in H; [|apply prime_ge_2 in Hp; lia]. apply prime_ge_2 in Hp. lia.
  - intros H. apply prime_mult in H; [|exact Hp]. tauto.
Qed.

Lemma map_NoDup_in (f : Z -> Z) l : (forall x y, In x l -> In y l -> f x = f y -> x = y) -> NoDup l -> NoDup (map f l).
Proof.
  intros H N. induction N as [|x l Hx N IH]; simpl; constructor.
  - intros K. apply in_map_iff in K. destruct K as (y & E & Hy). apply Hx. rewrite (H x y); [exact Hy|now left|now right|now symmetry].
  - apply IH. intros a b Ha Hb. apply H; now right.
Qed.
Theorem fermat p a : prime p -> ~ (p | a) -> cong p (a ^ (p - 1)) 1.
Proof.
  intros Hp Ha. pose proof (prime_ge_2 p Hp) as H2.
  set (L := map Z.of_nat (seq 1 (Z.to_nat (p - 1)))).
  assert (HL : forall x, In x L <-> 1 <= x < p).
  { intros x. unfold L. rewrite in_map_iff. split.
    - intros (k & <- & Hk). apply in_seq in Hk. lia.
    - intros Hx. exists (Z.to_nat x). split; [lia|]. apply in_seq. lia. }
  assert (ND : NoDup L).
  { unfold L. apply FinFun.Injective_map_NoDup; [intros x y; lia|apply seq_NoDup]. }
  assert (NDiv : forall x, 1 <= x < p -> ~ (p | x)).
  { intros x Hx (k & E). assert (k = 0 \/ k >= 1 \/ k <= -1) as [->|[K|K]] by lia; nia. }
  set (L' := map (fun x => (a * x) mod p) L).
  assert (P : Permutation L' L).
  { apply NoDup_Permutation_bis.
    - unfold L'. apply map_NoDup_in; [|exact ND]. intros x y Hx Hy E. apply HL in Hx, Hy.
      apply cong_mod in E; [|lia]. unfold cong in E. replace (a * x - a * y) with (a * (x - y)) in E by ring.
      apply prime_mult in E; [|exact Hp]. destruct E as [E|E]; [contradiction|].
      destruct (Z.eq_dec x y) as [|N]; [assumption|exfalso].
      destruct (Z.le_gt_cases x y).
      + apply (NDiv (y - x)); [lia|]. apply Z.divide_opp_r. now replace (- (y - x)) with (x - y) by lia.
      + apply (NDiv (x - y)); [lia|exact E].
    - unfold L'. now rewrite map_length.
    - intros x Hx. unfold L' in Hx. apply in_map_iff in Hx. destruct Hx as (y & <- & Hy). apply HL in Hy. apply HL.
      pose proof (Z.mod_pos_bound (a * y) p ltac:(lia)). assert (a * y mod p <> 0); [|lia].
      intros E. apply Zmod_divide in E; [|lia]. apply prime_mult in E; [|exact Hp]. destruct E as [E|E]; [contradiction|]. exact (NDiv y Hy E). }
  pose proof (prods_map p a L ltac:(lia)) as C. fold L' in C. rewrite (prods_perm _ _ P) in C.
  replace (Z.of_nat (length L)) with (p - 1) in C by (unfold L; rewrite map_length, seq_length; lia).
  unfold cong in *. replace (prods L - a ^ (p - 1) * prods L) with (- ((a ^ (p - 1) - 1) * prods L)) in C by ring.
  rewrite Z.divide_opp_r in C. apply prime_mult in C; [|exact Hp]. destruct C as [C|C]; [exact C|exfalso].
  revert C. apply prods_prime; [exact Hp|]. apply Forall_forall. intros x Hx. apply NDiv, HL, Hx.
Qed.

(** * Pocklington *)
Lemma prime_divisor n : 1 < n -> exists r, prime r /\ (r | n).
Proof.
  intros Hn. refine (Z_lt_induction (fun n => 1 < n -> exists r, prime r /\ (r | n)) _ n ltac:(lia) Hn).
  clear n Hn. intros n IH Hn. destruct (prime_dec n) as [P|N]; [exists n; split; [exact P|apply Z.divide_refl]|].
  apply not_prime_divide in N; [|lia]. destruct N as (m & Hm & D). destruct (IH m ltac:(lia) ltac:(lia)) as (r & Hr & Dr).
  exists r. split; [exact Hr|]. eapply Z.divide_trans; eassumption.
Qed.
Lemma large_divisors n : 1 < n -> (forall r, prime r -> (r | n) -> n < r * r) -> prime n.
Proof.
  intros Hn H. destruct (prime_dec n) as [P|N]; [exact P|exfalso].
  apply not_prime_divide in N; [|lia]. destruct N as (m & Hm & (k & E)).
  assert (K : 1 < k < n) by nia.
  destruct (prime_divisor m ltac:(lia)) as (r & Hr & Dr). destruct (prime_divisor k ltac:(lia)) as (r' & Hr' & Dr').
  pose proof (H r Hr (Z.divide_trans _ _ _ Dr (ex_intro _ k E))) as H1.
  pose proof (H r' Hr' (Z.divide_trans _ _ _ Dr' (ex_intro _ m (eq_trans E (Z.mul_comm _ _))))) as H2.
  pose proof (Z.divide_pos_le r m ltac:(lia) Dr). pose proof (Z.divide_pos_le r' k ltac:(lia) Dr').
  pose proof (prime_ge_2 r Hr). pose proof (prime_ge_2 r' Hr').
  assert (A : r * r <= m * m) by (apply Z.mul_le_mono_nonneg; lia). assert (B : r' * r' <= k * k) by (apply Z.mul_le_mono_nonneg; lia).
  assert (k < m) by nia. assert (m < k) by nia. lia.
Qed.

(** A witness that the prime [q] divides every prime divisor of [n] minus one. *)
Definition witness (n q : Z) : bool :=
  (0 <? q) && ((n - 1) mod q =? 0) &&
  let c := powm 2 ((n - 1) / q) n in
  (powm c q n =? 1) && (Z.gcd (c - 1) n =? 1).
Lemma one_pow k : 0 <= k -> 1 ^ k = 1. Proof. apply Z.pow_1_l. Qed.
Lemma bezout_one r c x y : prime r -> 0 <= x -> 0 <= y -> rel_prime x y -> cong r (c ^ x) 1 -> cong r (c ^ y) 1 -> cong r c 1.
Proof.
  intros Hr Hx Hy G X Y. destruct (rel_prime_bezout _ _ G) as [u v E].
  destruct (Z.le_gt_cases 0 u).
  - assert (v <= 0 \/ 0 < v) as [V|V] by lia.
    + assert (A : cong r (c ^ (u * x)) 1). { rewrite Z.mul_comm, Z.pow_mul_r by lia. rewrite <- (one_pow u) by lia. now apply cong_pow. }
      assert (B : cong r (c ^ (- v * y)) 1). { rewrite Z.mul_comm, Z.pow_mul_r by lia. rewrite <- (one_pow (- v)) by lia. apply cong_pow; [lia|exact Y]. }
      replace (u * x) with (1 + - v * y) in A by lia. rewrite Z.pow_add_r, Z.pow_1_r in A by nia.
      eapply cong_trans; [|exact A]. apply cong_sym. pose proof (cong_mul r c c _ _ (cong_refl r c) B) as Q. rewrite Z.mul_1_r in Q. exact Q.
    + assert (y <= 1) by nia. assert (y = 0 \/ y = 1) as [->| ->] by lia.
      * assert (u * x = 1) as Q by lia. apply Z.mul_eq_1 in Q. assert (x = 1) as -> by (destruct Q; subst; lia). now rewrite Z.pow_1_r in X.
      * now rewrite Z.pow_1_r in Y.
  - assert (A : cong r (c ^ (- u * x)) 1). { rewrite Z.mul_comm, Z.pow_mul_r by lia. rewrite <- (one_pow (- u)) by lia. apply cong_pow; [lia|exact X]. }
    assert (0 <= v) by nia.
    assert (B : cong r (c ^ (v * y)) 1). { rewrite Z.mul_comm, Z.pow_mul_r by lia. rewrite <- (one_pow v) by lia. apply cong_pow; [lia|exact Y]. }
    replace (v * y) with (1 + - u * x) in B by lia. rewrite Z.pow_add_r, Z.pow_1_r in B by nia.
    eapply cong_trans; [|exact B]. apply cong_sym. pose proof (cong_mul r c c _ _ (cong_refl r c) A) as Q. rewrite Z.mul_1_r in Q. exact Q.
Qed.

Lemma witness_divides n q r : 1 < n -> prime q -> witness n q = true -> prime r -> (r | n) -> (q | r - 1).
Proof.
  intros Hn Hq Hw Hr Hd. unfold witness in Hw.
  apply andb_true_iff in Hw as (W1 & W2). apply andb_true_iff in W1 as (W0 & W1). cbv zeta in W2. apply andb_true_iff in W2 as (W2 & W3).
  set (c := powm 2 ((n - 1) / q) n) in *. apply Z.eqb_eq in W1, W2, W3.
  pose proof (prime_ge_2 q Hq) as Q2. pose proof (prime_ge_2 r Hr) as R2.
  rewrite powm_spec in W2 by lia.
  assert (C1 : cong r (c ^ q) 1).
  { apply (cong_div n); [exact Hd|]. apply cong_mod; [lia|]. rewrite W2. now rewrite Z.mod_small by lia. }
  assert (C2 : ~ cong r c 1).
  { intros K. assert (D : (r | Z.gcd (c - 1) n)) by (apply Z.gcd_greatest; assumption). rewrite W3 in D.
    apply Z.divide_1_r_nonneg in D; lia. }
  assert (C3 : ~ (r | c)).
  { intros K. assert (D : (r | c ^ q)). { replace q with (1 + (q - 1)) by lia. rewrite Z.pow_add_r, Z.pow_1_r by lia. apply Z.divide_mul_l. exact K. }
    assert (D1 : (r | 1)). { replace 1 with (c ^ q - (c ^ q - 1)) by lia. apply Z.divide_sub_r; assumption. }
    apply Z.divide_1_r_nonneg in D1; lia. }
  destruct (Zdivide_dec q (r - 1)) as [D|N]; [exact D|exfalso].
  apply C2. apply (bezout_one r c q (r - 1)); try lia; auto.
  - apply prime_rel_prime; assumption.
  - now apply fermat.
Qed.

Lemma pocklington1 n q : 1 < n -> prime q -> n <? q * q = true -> witness n q = true -> prime n.
Proof.
  intros Hn Hq Hs Hw. apply large_divisors; [exact Hn|]. intros r Hr Hd.
  pose proof (witness_divides n q r Hn Hq Hw Hr Hd) as D. pose proof (prime_ge_2 r Hr). pose proof (prime_ge_2 q Hq).
  pose proof (Z.divide_pos_le q (r - 1) ltac:(lia) D). nia.
Qed.
Lemma pocklington2 n q1 q2 : 1 < n -> prime q1 -> prime q2 -> (q1 =? q2) = false -> (n <? (q1 * q2) * (q1 * q2)) = true ->
  witness n q1 = true -> witness n q2 = true -> prime n.
Proof.
  intros Hn H1 H2 Hne Hs W1 W2. apply large_divisors; [exact Hn|]. intros r Hr Hd.
  pose proof (witness_divides n q1 r Hn H1 W1 Hr Hd) as D1. pose proof (witness_divides n q2 r Hn H2 W2 Hr Hd) as D2.
  pose proof (prime_ge_2 r Hr). pose proof (prime_ge_2 q1 H1). pose proof (prime_ge_2 q2 H2).
  assert (G : rel_prime q2 q1).
  { apply prime_rel_prime; [exact H2|]. intros K. apply prime_div_prime in K; auto. lia. }
  assert (D : (q1 * q2 | r - 1)).
  { destruct D1 as (k & E). rewrite E in D2. rewrite Z.mul_comm in D2. apply Gauss in D2; [|exact G]. destruct D2 as (j & E2). exists j. rewrite E, E2. ring. }
  pose proof (Z.divide_pos_le (q1 * q2) (r - 1) ltac:(lia) D). nia.
Qed.
(** Small primes by trial division. *)
Definition trial (n : Z) : bool := (1 <? n) && forallb (fun d => negb (n mod Z.of_nat d =? 0)) (seq 2 (Z.to_nat (n - 2))).
Lemma trial_prime n : trial n = true -> prime n.
Proof.
  unfold trial. intros H. apply andb_true_iff in H as (Hn & H). rewrite forallb_forall in H.
  destruct (prime_dec n) as [P|N]; [exact P|exfalso]. apply not_prime_divide in N; [|lia]. destruct N as (m & Hm & D).
  specialize (H (Z.to_nat m) ltac:(apply in_seq; lia)). rewrite Z2Nat.id in H by lia. apply Z.mod_divide in D; [|lia]. rewrite D in H. discriminate.
Qed.

(** * Certificates *)
Lemma prime_7 : prime 7. Proof. apply trial_prime. vm_compute. reflexivity. Qed.
Lemma prime_11 : prime 11. Proof. apply trial_prime. vm_compute. reflexivity. Qed.
Lemma prime_29 : prime 29. Proof. apply trial_prime. vm_compute. reflexivity. Qed.
Lemma prime_73 : prime 73. Proof. apply trial_prime. vm_compute. reflexivity. Qed.
Lemma prime_127 : prime 127. Proof. apply trial_prime. vm_compute. reflexivity. Qed.
Lemma prime_239 : prime 239. Proof. apply trial_prime. vm_compute. reflexivity. Qed.
Lemma prime_241 : prime 241. Proof. apply trial_prime. vm_compute. reflexivity. Qed.
Lemma prime_281 : prime 281. Proof. apply trial_prime. vm_compute. reflexivity. Qed.
Lemma prime_431 : prime 431. Proof. apply trial_prime. vm_compute. reflexivity. Qed.
Lemma prime_1471 : prime 1471. Proof. apply trial_prime. vm_compute. reflexivity. Qed.
Lemma prime_150571 : prime 150571.
Proof. apply (pocklington2 _ 239 7); [lia|exact prime_239|exact prime_7|vm_compute; reflexivity..]. Qed.
Lemma prime_76493 : prime 76493.
Proof. apply (pocklington1 _ 1471); [lia|exact prime_1471|vm_compute; reflexivity|vm_compute; reflexivity]. Qed.
Lemma prime_23035255007 : prime 23035255007.
Proof. apply (pocklington2 _ 150571 76493); [lia|exact prime_150571|exact prime_76493|vm_compute; reflexivity..]. Qed.
Lemma prime_28711 : prime 28711.
Proof. apply (pocklington2 _ 29 11); [lia|exact prime_29|exact prime_11|vm_compute; reflexivity..]. Qed.
Lemma prime_4593761 : prime 4593761.
Proof. apply (pocklington1 _ 28711); [lia|exact prime_28711|vm_compute; reflexivity|vm_compute; reflexivity]. Qed.
Lemma prime_91875221 : prime 91875221.
Proof. apply (pocklington1 _ 4593761); [lia|exact prime_4593761|vm_compute; reflexivity|vm_compute; reflexivity]. Qed.
Lemma prime_1087813740303573515159 : prime 1087813740303573515159.
Proof. apply (pocklington2 _ 23035255007 91875221); [lia|exact prime_23035255007|exact prime_91875221|vm_compute; reflexivity..]. Qed.
Lemma prime_16609854108225031288727134817 : prime 16609854108225031288727134817.
Proof. apply (pocklington1 _ 1087813740303573515159); [lia|exact prime_1087813740303573515159|vm_compute; reflexivity|vm_compute; reflexivity]. Qed.
Lemma prime_5843 : prime 5843.
Proof. apply (pocklington1 _ 127); [lia|exact prime_127|vm_compute; reflexivity|vm_compute; reflexivity]. Qed.
Lemma prime_853079 : prime 853079.
Proof. apply (pocklington1 _ 5843); [lia|exact prime_5843|vm_compute; reflexivity|vm_compute; reflexivity]. Qed.
Lemma prime_15355423 : prime 15355423.
Proof. apply (pocklington1 _ 853079); [lia|exact prime_853079|vm_compute; reflexivity|vm_compute; reflexivity]. Qed.
Lemma prime_15907 : prime 15907.
Proof. apply (pocklington1 _ 241); [lia|exact prime_241|vm_compute; reflexivity|vm_compute; reflexivity]. Qed.
Lemma prime_63629 : prime 63629.
Proof. apply (pocklington1 _ 15907); [lia|exact prime_15907|vm_compute; reflexivity|vm_compute; reflexivity]. Qed.
Lemma prime_4103610882281401 : prime 4103610882281401.
Proof. apply (pocklington2 _ 15355423 63629); [lia|exact prime_15355423|exact prime_63629|vm_compute; reflexivity..]. Qed.
Lemma prime_164144435291256041 : prime 164144435291256041.
Proof. apply (pocklington1 _ 4103610882281401); [lia|exact prime_4103610882281401|vm_compute; reflexivity|vm_compute; reflexivity]. Qed.
Lemma prime_10794138064752997256161 : prime 10794138064752997256161.
Proof. apply (pocklington1 _ 164144435291256041); [lia|exact prime_164144435291256041|vm_compute; reflexivity|vm_compute; reflexivity]. Qed.
Lemma prime_13008861940417978637584514274743203260316419139111920661532489703530863799899 : prime 13008861940417978637584514274743203260316419139111920661532489703530863799899.
Proof. apply (pocklington2 _ 16609854108225031288727134817 10794138064752997256161); [lia|exact prime_16609854108225031288727134817|exact prime_10794138064752997256161|vm_compute; reflexivity..]. Qed.
Lemma prime_1148729 : prime 1148729.
Proof. apply (pocklington2 _ 281 73); [lia|exact prime_281|exact prime_73|vm_compute; reflexivity..]. Qed.
Lemma prime_783070179637 : prime 783070179637.
Proof. apply (pocklington1 _ 1148729); [lia|exact prime_1148729|vm_compute; reflexivity|vm_compute; reflexivity]. Qed.
Lemma prime_197129442127504220667199 : prime 197129442127504220667199.
Proof. apply (pocklington1 _ 783070179637); [lia|exact prime_783070179637|vm_compute; reflexivity|vm_compute; reflexivity]. Qed.
Lemma prime_28447 : prime 28447.
Proof. apply (pocklington1 _ 431); [lia|exact prime_431|vm_compute; reflexivity|vm_compute; reflexivity]. Qed.
Lemma prime_5737 : prime 5737.
Proof. apply (pocklington1 _ 239); [lia|exact prime_239|vm_compute; reflexivity|vm_compute; reflexivity]. Qed.
Lemma prime_7838517085171 : prime 7838517085171.
Proof. apply (pocklington2 _ 28447 5737); [lia|exact prime_28447|exact prime_5737|vm_compute; reflexivity..]. Qed.
Lemma prime_9997628433766911306392609821624522110747959750147131 : prime 9997628433766911306392609821624522110747959750147131.
Proof. apply (pocklington2 _ 197129442127504220667199 7838517085171); [lia|exact prime_197129442127504220667199|exact prime_7838517085171|vm_compute; reflexivity..]. Qed.
Lemma prime_37123740430619255364870514048064684427755030292214028372263247 : prime 37123740430619255364870514048064684427755030292214028372263247.
Proof. apply (pocklington1 _ 9997628433766911306392609821624522110747959750147131); [lia|exact prime_9997628433766911306392609821624522110747959750147131|vm_compute; reflexivity|vm_compute; reflexivity]. Qed.
Lemma prime_545757562352748437778195250781205191227156621952501599157677289463253105178519 : prime 545757562352748437778195250781205191227156621952501599157677289463253105178519.
Proof. apply (pocklington1 _ 37123740430619255364870514048064684427755030292214028372263247); [lia|exact prime_37123740430619255364870514048064684427755030292214028372263247|vm_compute; reflexivity|vm_compute; reflexivity]. Qed.
Lemma sig_p_value : sig_p = 13008861940417978637584514274743203260316419139111920661532489703530863799899. Proof. vm_compute. reflexivity. Qed.
Lemma sig_q_value : sig_q = 545757562352748437778195250781205191227156621952501599157677289463253105178519. Proof. vm_compute. reflexivity. Qed.
Lemma sig_p_prime : prime sig_p. Proof. rewrite sig_p_value. exact prime_13008861940417978637584514274743203260316419139111920661532489703530863799899. Qed.
Lemma sig_q_prime : prime sig_q. Proof. rewrite sig_q_value. exact prime_545757562352748437778195250781205191227156621952501599157677289463253105178519. Qed.
