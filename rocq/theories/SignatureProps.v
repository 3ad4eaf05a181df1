(** C30: application signatures. *)
From Coq Require Import ZArith List Lia Znumtheory.
From Verif Require Import Base BaseProofs ExportModel PrimeProofs AppProofs.

(** * How a calculator verifies a signature *)
(** Little-endian numbers. *)
Definition le_value (l : list Z) : Z := fold_right (fun b r => b + 256 * r) 0 l.
(** The 96 bytes after the program: 02 2D, the length of the signature, the signature, and its
    kind: 00, or 01 and the kind. *)
Definition read_signature (block : list Z) : option (Z * Z) :=
  match block with
  | 2 :: 45 :: n :: r =>
    let sig := firstn (Z.to_nat n) r in
    match skipn (Z.to_nat n) r with
    | 0 :: _ => Some (le_value sig, 0)
    | 1 :: f :: _ => Some (le_value sig, f)
    | _ => None
    end
  | _ => None
  end.
(** A signature of kind f of the message m is a square root of the multiple of m given by f. *)
Definition multiplier (f : Z) : Z := if f =? 0 then -2 else if f =? 1 then -1 else if f =? 2 then 1 else 2.
Definition verifies (n m : Z) (block : list Z) : Prop :=
  exists sig f, read_signature block = Some (sig, f) /\ 0 <= f <= 3 /\ 0 <= sig < n /\
    (sig * sig) mod n = (multiplier f * m) mod n.

(** * Quadratic residues modulo a prime *)
Lemma from_le_value l : from_le l = le_value l.
Proof. induction l as [|b l IH]; simpl; [reflexivity|]. now rewrite IH. Qed.

Section Residue.
Variable p : Z.
Hypothesis Hp : prime p.
Hypothesis H3 : p mod 4 = 3.
Let h := (p - 1) / 2.
Lemma p_pos : 3 <= p. Proof. pose proof (prime_ge_2 p Hp). lia. Qed.

Lemma euler a : ~ (p | a) -> cong p (a ^ h) 1 \/ cong p (a ^ h) (-1).
Proof.
  intros Ha. pose proof p_pos. pose proof (fermat p a Hp Ha) as F. unfold h.
  replace (p - 1) with ((p - 1) / 2 + (p - 1) / 2) in F by lia. rewrite Z.pow_add_r in F by lia.
  unfold cong in *. set (x := a ^ ((p - 1) / 2)) in *. replace (x * x - 1) with ((x - 1) * (x - - (1))) in F by ring.
  apply prime_mult in F; [|exact Hp]. exact F.
Qed.
Lemma minus_one : (-1) ^ h = -1.
Proof. pose proof p_pos. unfold h. replace ((p - 1) / 2) with (2 * ((p - 3) / 4) + 1) by lia. rewrite Z.pow_add_r, Z.pow_mul_r by lia. change ((-1) ^ 2) with 1. rewrite Z.pow_1_l by lia. reflexivity. Qed.
Lemma one_not_minus_one : ~ cong p 1 (-1).
Proof. intros (k & E). pose proof p_pos. assert (k = 0 \/ 1 <= k \/ k <= -1) as [->|[K|K]] by lia; nia. Qed.

Lemma is_residue_cong a : is_residue a p = true <-> cong p (a ^ h) 1.
Proof.
  pose proof p_pos. unfold is_residue. fold h. rewrite powm_spec by (unfold h; lia). rewrite (cong_mod p _ 1) by lia. rewrite (Z.mod_small 1 p) by lia. lia.
Qed.
(** [is_residue] is what the Legendre symbol says: a nonzero square. *)
Lemma is_residue_square a : is_residue a p = true <-> (~ (p | a) /\ exists x, cong p (x * x) a).
Proof.
  pose proof p_pos. rewrite is_residue_cong. split.
  - intros R. split.
    + intros D. assert (K : (p | a ^ h)).
      { unfold h. replace ((p - 1) / 2) with (1 + ((p - 1) / 2 - 1)) by lia. rewrite Z.pow_add_r, Z.pow_1_r by lia. now apply Z.divide_mul_l. }
      assert (K1 : (p | 1)). { replace 1 with (a ^ h - (a ^ h - 1)) by lia. now apply Z.divide_sub_r. }
      apply Z.divide_1_r_nonneg in K1; lia.
    + exists (a ^ ((p + 1) / 4)). rewrite <- Z.pow_add_r by lia. replace ((p + 1) / 4 + (p + 1) / 4) with (1 + h) by (unfold h; lia).
      rewrite Z.pow_add_r, Z.pow_1_r by (unfold h; lia). pose proof (cong_mul p a a _ _ (cong_refl p a) R) as Q. now rewrite Z.mul_1_r in Q.
  - intros (N & x & X). assert (Nx : ~ (p | x)).
    { intros D. apply N. replace a with (x * x - (x * x - a)) by lia. apply Z.divide_sub_r; [now apply Z.divide_mul_l|exact X]. }
    pose proof (fermat p x Hp Nx) as F. eapply cong_trans; [apply cong_sym, (cong_pow p _ _ h ltac:(unfold h; lia) X)|].
    rewrite <- Z.pow_2_r, <- Z.pow_mul_r by (unfold h; lia). replace (2 * h) with (p - 1) by (unfold h; lia). exact F.
Qed.

Lemma not_residue a : ~ (p | a) -> is_residue a p = false -> cong p (a ^ h) (-1).
Proof.
  intros Ha R. destruct (euler a Ha) as [E|E]; [|exact E]. apply is_residue_cong in E. congruence.
Qed.
(** A square root by one exponentiation. *)
Lemma root a : cong p (a ^ h) 1 -> cong p (powm a ((p + 1) / 4) p * powm a ((p + 1) / 4) p) a.
Proof.
  intros R. pose proof p_pos. rewrite powm_spec by lia.
  eapply cong_trans; [apply cong_mul; apply cong_to_mod; lia|].
  rewrite <- Z.pow_add_r by lia. replace ((p + 1) / 4 + (p + 1) / 4) with (1 + h) by (unfold h; lia).
  rewrite Z.pow_add_r, Z.pow_1_r by (unfold h; lia). pose proof (cong_mul p a a _ _ (cong_refl p a) R) as Q. now rewrite Z.mul_1_r in Q.
Qed.
Lemma pow_mul_cong a b x y : cong p (a ^ h) x -> cong p (b ^ h) y -> cong p ((a * b) ^ h) (x * y).
Proof. intros. rewrite Z.pow_mul_l. now apply cong_mul. Qed.
End Residue.

(** * The key *)
Lemma key_p : sig_p mod 4 = 3 /\ sig_p14 = (sig_p + 1) / 4 /\ sig_q mod 4 = 3 /\ sig_q14 = (sig_q + 1) / 4 /\
  (sig_q * sig_qpowp) mod sig_p = 1 /\ 2 ^ 137 < sig_p /\ 2 ^ 137 < sig_q /\ (sig_p =? sig_q) = false.
Proof. vm_compute. repeat split; reflexivity. Qed.
(** 2 is not a square modulo p, and is one modulo q. *)
Lemma two_p : powm 2 ((sig_p - 1) / 2) sig_p = sig_p - 1. Proof. vm_compute. reflexivity. Qed.
Lemma two_q : powm 2 ((sig_q - 1) / 2) sig_q = 1. Proof. vm_compute. reflexivity. Qed.

Lemma crt p q x y : prime p -> prime q -> p <> q -> cong p x y -> cong q x y -> cong (p * q) x y.
Proof.
  intros Hp Hq Hne (k & E) D. unfold cong in *. rewrite E in D. rewrite Z.mul_comm in D.
  apply Gauss in D; [|apply prime_rel_prime; [exact Hq|intros K; apply prime_div_prime in K; auto]].
  destruct D as (j & E2). exists j. rewrite E, E2. ring.
Qed.

(** The computation of [siggen], for any key. *)
Lemma sign_core p q n qp p14 q14 m : prime p -> prime q -> p mod 4 = 3 -> q mod 4 = 3 -> p <> q -> n = p * q ->
  p14 = (p + 1) / 4 -> q14 = (q + 1) / 4 -> (q * qp) mod p = 1 ->
  cong p (2 ^ ((p - 1) / 2)) (-1) -> cong q (2 ^ ((q - 1) / 2)) 1 -> ~ (p | m) -> ~ (q | m) ->
  let lp := if is_residue m p then 0 else 1 in
  let lq := if is_residue m q then 1 else 0 in
  let M := if lp =? lq then m * 2 else m in
  let M := if lq =? 0 then n - M else M in
  let r := powm M p14 p in
  let s := powm M q14 q in
  let sig := (((r - s) * qp) mod p) * q + s in
  cong n (sig * sig) (multiplier (lp + lq + lq) * m).
Proof.
  intros PP PQ P3 Q3 NE Hn P14 Q14 QP TP TQ Dp Dq lp lq M0 M. pose proof (prime_ge_2 p PP). pose proof (prime_ge_2 q PQ).
  pose proof (minus_one p PP P3) as MP. pose proof (minus_one q PQ Q3) as MQ.
  assert (CP : cong p ((-1) ^ ((p - 1) / 2)) (-1)) by (rewrite MP; apply cong_refl).
  assert (CQ : cong q ((-1) ^ ((q - 1) / 2)) (-1)) by (rewrite MQ; apply cong_refl).
  pose proof (pow_mul_cong p (-1) 2 _ _ CP TP) as CP2. pose proof (pow_mul_cong q (-1) 2 _ _ CQ TQ) as CQ2.
  assert (Rp : cong p (m ^ ((p - 1) / 2)) (if is_residue m p then 1 else -1)).
  { destruct (is_residue m p) eqn:E; [now apply is_residue_cong|now apply not_residue]. }
  assert (Rq : cong q (m ^ ((q - 1) / 2)) (if is_residue m q then 1 else -1)).
  { destruct (is_residue m q) eqn:E; [now apply is_residue_cong|now apply not_residue]. }
  assert (Z1 : cong n M (multiplier (lp + lq + lq) * m)).
  { unfold M, M0, lp, lq, cong. destruct (is_residue m p), (is_residue m q); cbn [Z.eqb Pos.eqb];
      match goal with |- context [multiplier ?x] => let v := eval vm_compute in (multiplier x) in change (multiplier x) with v end;
      [exists 0|exists 1|exists 0|exists 1]; lia. }
  (* the message is a square modulo both primes *)
  assert (K : cong p (M ^ ((p - 1) / 2)) 1 /\ cong q (M ^ ((q - 1) / 2)) 1).
  { assert (ZP : cong p M (multiplier (lp + lq + lq) * m)) by (apply (cong_div n); [exists q; lia|exact Z1]).
    assert (ZQ : cong q M (multiplier (lp + lq + lq) * m)) by (apply (cong_div n); [exists p; lia|exact Z1]).
    assert (HP0 : 0 <= (p - 1) / 2) by lia. assert (HQ0 : 0 <= (q - 1) / 2) by lia.
    pose proof (cong_pow _ _ _ _ HP0 ZP) as ZP'. pose proof (cong_pow _ _ _ _ HQ0 ZQ) as ZQ'. clear Z1 ZP ZQ HP0 HQ0.
    unfold lp, lq in ZP', ZQ'.
    destruct (is_residue m p), (is_residue m q);
      match type of ZP' with context [multiplier ?x] => let v := eval vm_compute in (multiplier x) in change (multiplier x) with v in ZP', ZQ' end; split;
      (eapply cong_trans; [first [exact ZP'|exact ZQ']|]).
    - now rewrite Z.mul_1_l.
    - now rewrite Z.mul_1_l.
    - exact (pow_mul_cong p _ _ _ _ CP2 Rp).
    - exact (pow_mul_cong q _ _ _ _ CQ2 Rq).
    - exact (pow_mul_cong p _ _ _ _ TP Rp).
    - exact (pow_mul_cong q _ _ _ _ TQ Rq).
    - exact (pow_mul_cong p _ _ _ _ CP Rp).
    - exact (pow_mul_cong q _ _ _ _ CQ Rq). }
  destruct K as (K2 & K3). cbv zeta.
  set (f := lp + lq + lq) in *. clearbody f M. clear lp lq Rp Rq TP TQ MP MQ CP CQ CP2 CQ2 M0.
  pose proof (root p PP P3 M K2) as RP. pose proof (root q PQ Q3 M K3) as RQ. rewrite <- P14 in RP. rewrite <- Q14 in RQ.
  set (r := powm M p14 p) in *. set (s := powm M q14 q) in *. clearbody r s.
  set (t := ((r - s) * qp) mod p).
  eapply cong_trans; [|exact Z1]. rewrite Hn. apply crt; auto.
  - assert (T : cong p (t * q + s) r).
    { assert (T1 : cong p (t * q) (r - s)).
      { eapply cong_trans; [apply cong_mul; [apply cong_to_mod; lia|apply cong_refl]|].
        replace ((r - s) * qp * q) with ((r - s) * (q * qp)) by ring.
        pose proof (cong_mul p (r - s) (r - s) (q * qp) 1 (cong_refl _ _)) as Q. rewrite Z.mul_1_r in Q. apply Q.
        apply cong_mod; [lia|]. rewrite QP. now rewrite Z.mod_small by lia. }
      pose proof (cong_add _ _ _ _ _ T1 (cong_refl p s)) as T2. now replace (r - s + s) with r in T2 by lia. }
    eapply cong_trans; [exact (cong_mul _ _ _ _ _ T T)|exact RP].
  - assert (T : cong q (t * q + s) s) by (exists t; ring).
    eapply cong_trans; [exact (cong_mul _ _ _ _ _ T T)|exact RQ].
Qed.

Lemma le_value_bound hash : bytes hash -> 0 <= le_value hash < 256 ^ Z.of_nat (length hash).
Proof.
  induction 1 as [|b l B _ IH]; [simpl; lia|].
  cbn [le_value fold_right length]. fold (le_value l). rewrite Nat2Z.inj_succ, Z.pow_succ_r by lia. unfold is_byte in B. lia.
Qed.
Lemma small_not_divide r m : 0 < m < r -> ~ (r | m).
Proof. intros H (k & E). assert (k <= 0 \/ 1 <= k) as [K|K] by lia; nia. Qed.

Lemma siggen_root hash : bytes hash -> length hash = 16%nat ->
  cong sig_n (fst (siggen hash) * fst (siggen hash)) (multiplier (snd (siggen hash)) * (256 * le_value hash + 1)).
Proof.
  intros Hb Hl. destruct key_p as (P3 & P14 & Q3 & Q14 & QP & PB & QB & NE). apply Z.eqb_neq in NE.
  pose proof (le_value_bound hash Hb) as Hh. rewrite Hl in Hh. change (Z.of_nat 16) with 16 in Hh.
  unfold siggen. rewrite from_le_value. replace (le_value hash * 256 + 1) with (256 * le_value hash + 1) by lia.
  set (m := 256 * le_value hash + 1).
  assert (Hm : 0 < m < 2 ^ 137). { unfold m. change (2 ^ 137) with (2 * (256 * 256 ^ 16)). lia. }
  pose proof (small_not_divide sig_p m (conj (proj1 Hm) (Z.lt_trans _ _ _ (proj2 Hm) PB))) as Dp.
  pose proof (small_not_divide sig_q m (conj (proj1 Hm) (Z.lt_trans _ _ _ (proj2 Hm) QB))) as Dq.
  assert (TP : cong sig_p (2 ^ ((sig_p - 1) / 2)) (-1)).
  { pose proof two_p as T. revert T. generalize (prime_ge_2 _ sig_p_prime). generalize sig_p. intros p H2 T. apply cong_mod; [lia|].
    rewrite powm_spec in T by lia. rewrite T, <- (Z.mod_small (p - 1) p) by lia. replace (p - 1) with (-1 + 1 * p) by lia. now rewrite Z.mod_add by lia. }
  assert (TQ : cong sig_q (2 ^ ((sig_q - 1) / 2)) 1).
  { pose proof two_q as T. revert T. generalize (prime_ge_2 _ sig_q_prime). generalize sig_q. intros p H2 T. apply cong_mod; [lia|].
    rewrite powm_spec in T by lia. rewrite T. now rewrite Z.mod_small by lia. }
  exact (sign_core sig_p sig_q sig_n sig_qpowp sig_p14 sig_q14 m sig_p_prime sig_q_prime P3 Q3 NE (eq_sym sig_pq) P14 Q14 QP TP TQ Dp Dq).
Qed.

Lemma to_le_value n : forall z, 0 <= z < 256 ^ Z.of_nat n -> le_value (to_le n z) = z.
Proof.
  induction n as [|n IH]; intros z Hz; [change (256 ^ Z.of_nat 0) with 1 in Hz; simpl; lia|].
  cbn [to_le le_value fold_right]. fold (le_value (to_le n (z / 256))). rewrite Nat2Z.inj_succ, Z.pow_succ_r in Hz by lia.
  rewrite IH; [lia|]. split; [lia|apply Z.div_lt_upper_bound; lia].
Qed.
Lemma hexmin_bound z : 0 <= z -> z < 16 ^ Z.of_nat (length (hexmin z)).
Proof.
  intros H0. refine (Z_lt_induction (fun z => 0 <= z -> z < 16 ^ Z.of_nat (length (hexmin z))) _ z H0 H0). clear z H0. intros z IH Hz.
  rewrite hexmin_step by lia. destruct (z <? 16) eqn:E; [cbn [length]; change (16 ^ Z.of_nat 1) with 16; lia|].
  specialize (IH (z / 16) ltac:(lia) ltac:(lia)). rewrite app_length. cbn [length]. rewrite Nat.add_1_r, Nat2Z.inj_succ, Z.pow_succ_r by lia. lia.
Qed.
Lemma siglength_bound z : 0 <= z -> z < 256 ^ Z.of_nat (siglength z).
Proof.
  intros H. pose proof (hexmin_bound z H) as B. eapply Z.lt_le_trans; [exact B|]. change 256 with (16 ^ 2).
  rewrite <- Z.pow_mul_r by lia. apply Z.pow_le_mono_r; [lia|]. unfold siglength. pose proof (Nat.div_mod (length (hexmin z) + 1) 2 ltac:(lia)).
  pose proof (Nat.mod_upper_bound (length (hexmin z) + 1) 2 ltac:(lia)). lia.
Qed.

(** Every signature block verifies against the public key, whatever the hash. *)
Theorem c30_signature_verifies : forall hash, bytes hash -> length hash = 16%nat ->
  verifies sig_n (256 * le_value hash + 1) (sig_block hash).
Proof.
  intros hash Hb Hl. pose proof (siggen_root hash Hb Hl) as R. destruct (siggen_range hash) as (B & F). unfold sig_block.
  destruct (siggen hash) as [sig f]. cbn [fst snd] in B, F, R. exists sig, f. split; [|split; [exact F|split; [exact B|]]].
  - cbv zeta.
    match goal with |- read_signature (?t ++ ?e) = _ => set (E := e) end.
    rewrite <- !app_assoc. cbn [app read_signature]. rewrite Nat2Z.id.
    rewrite firstn_app, skipn_app, to_le_length, Nat.sub_diag.
    rewrite firstn_all2, skipn_all2 by (rewrite to_le_length; lia). cbn [firstn skipn]. rewrite app_nil_r. cbn [app].
    rewrite to_le_value by (split; [lia|apply siglength_bound; lia]).
    destruct (f =? 0) eqn:E0; cbn [app]; [|reflexivity]. now replace f with 0 by lia.
  - apply cong_mod; [|exact R]. clear -B. revert B. generalize sig_n. lia.
Qed.
(** The model's test for quadratic residues is the Legendre symbol, for both primes. *)
Theorem c30_legendre : forall a, (is_residue a sig_p = true <-> (~ (sig_p | a) /\ exists x, (sig_p | x * x - a))) /\
  (is_residue a sig_q = true <-> (~ (sig_q | a) /\ exists x, (sig_q | x * x - a))).
Proof.
  intros a. destruct key_p as (P3 & _ & Q3 & _). split; apply is_residue_square; auto using sig_p_prime, sig_q_prime.
Qed.
(** An instance: the hash 00 01 .. 0F has a signature of kind 2 or another of the four kinds. *)
Example c30_case : bytes (map Z.of_nat (seq 0 16)) /\ length (map Z.of_nat (seq 0 16)) = 16%nat.
Proof. split; [repeat constructor; unfold is_byte; simpl; lia|reflexivity]. Qed.
Print Assumptions c30_signature_verifies.
Print Assumptions c30_legendre.
