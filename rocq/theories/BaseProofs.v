(** General lemmas on bytes, lists and number printing. *)
From Coq Require Export Lia ZifyBool ZifyNat.
From Verif Require Export Base.

Ltac Zify.zify_post_hook ::= Z.div_mod_to_equations.

Global Arguments Z.mul : simpl never.
Global Arguments Z.add : simpl never.
Global Arguments Z.sub : simpl never.
Global Arguments Z.div : simpl never.
Global Arguments Z.modulo : simpl never.
Global Arguments Z.opp : simpl never.
Global Arguments Z.land : simpl never.
Global Arguments Z.shiftr : simpl never.
Global Arguments Z.shiftl : simpl never.

(** Replace character literals by their values. *)
Ltac chnorm :=
  repeat match goal with
  | |- context [ch ?c] => let v := eval vm_compute in (ch c) in change (ch c) with v
  | H : context [ch ?c] |- _ => let v := eval vm_compute in (ch c) in change (ch c) with v in H
  end.

Ltac zsnorm :=
  repeat match goal with
  | |- context [zs ?s] => let v := eval vm_compute in (zs s) in change (zs s) with v
  | H : context [zs ?s] |- _ => let v := eval vm_compute in (zs s) in change (zs s) with v in H
  end.

Lemma u8_byte z : is_byte (u8 z).
Proof. unfold is_byte, u8. lia. Qed.

Lemma u8_id z : is_byte z -> u8 z = z.
Proof. unfold is_byte, u8. lia. Qed.

Lemma lnot_alt z : Z.lnot z = - z - 1.
Proof. unfold Z.lnot. lia. Qed.

Lemma land_255 z : Z.land z 255 = z mod 256.
Proof. change 255 with (Z.ones 8). rewrite Z.land_ones by lia. reflexivity. Qed.

Lemma land_15 z : Z.land z 15 = z mod 16.
Proof. change 15 with (Z.ones 4). rewrite Z.land_ones by lia. reflexivity. Qed.

Lemma shiftr_4 z : Z.shiftr z 4 = z / 16.
Proof. rewrite Z.shiftr_div_pow2 by lia. reflexivity. Qed.

Lemma shiftr_8 z : Z.shiftr z 8 = z / 256.
Proof. rewrite Z.shiftr_div_pow2 by lia. reflexivity. Qed.

Lemma bytes_app a b : bytes (a ++ b) <-> bytes a /\ bytes b.
Proof. unfold bytes. apply Forall_app. Qed.

Lemma bytes_firstn n l : bytes l -> bytes (firstn n l).
Proof.
  intros H. rewrite <- (firstn_skipn n l) in H. apply bytes_app in H. tauto.
Qed.

Lemma bytes_skipn n l : bytes l -> bytes (skipn n l).
Proof.
  intros H. rewrite <- (firstn_skipn n l) in H. apply bytes_app in H. tauto.
Qed.

Lemma skipn_plus {A} a b (l : list A) : skipn (a + b) l = skipn b (skipn a l).
Proof.
  revert l; induction a as [|a IH]; intros [|x l]; simpl; auto using skipn_nil.
Qed.

Lemma firstn_plus {A} a b (l : list A) :
  firstn (a + b) l = firstn a l ++ firstn b (skipn a l).
Proof.
  revert l; induction a as [|a IH]; intros [|x l]; simpl; try rewrite firstn_nil; auto.
  rewrite IH. reflexivity.
Qed.

(** Fixed-width hexadecimal, most significant digit first. *)
Fixpoint hexfix (w : nat) (n : Z) : list Z :=
  match w with
  | O => []
  | S w' => hexfix w' (n / 16) ++ [hexdig (n mod 16)]
  end.

Lemma hexfix_length w n : length (hexfix w n) = w.
Proof.
  revert n; induction w as [|w IH]; intros n; simpl; [reflexivity|].
  rewrite app_length, IH; simpl; lia.
Qed.

Lemma hex_fuel_app fuel n acc acc2 :
  hex_fuel fuel n (acc ++ acc2) = hex_fuel fuel n acc ++ acc2.
Proof.
  revert n acc; induction fuel as [|f IH]; intros n acc; simpl; [reflexivity|].
  destruct (n / 16 =? 0); [reflexivity|].
  rewrite <- IH. reflexivity.
Qed.

(** Enough fuel: one unit per bit is plenty. *)
Lemma hex_fuel_enough f1 f2 n acc :
  0 <= n -> n < 2 ^ Z.of_nat f1 -> n < 2 ^ Z.of_nat f2 -> (1 <= f1)%nat -> (1 <= f2)%nat ->
  hex_fuel f1 n acc = hex_fuel f2 n acc.
Proof.
  revert f2 n acc; induction f1 as [|f1 IH]; intros f2 n acc Hn H1 H2 P1 P2; [lia|].
  destruct f2 as [|f2]; [lia|]. simpl.
  destruct (n / 16 =? 0) eqn:E; [reflexivity|].
  apply Z.eqb_neq in E.
  assert (Hlt : forall f, n < 2 ^ Z.of_nat (S f) -> n / 16 < 2 ^ Z.of_nat f /\ (1 <= f)%nat).
  { intros f Hf. rewrite Nat2Z.inj_succ, Z.pow_succ_r in Hf by lia.
    destruct f as [|f]; [simpl in Hf; exfalso; apply E; apply Z.div_small; lia|].
    split; [|lia]. apply Z.div_lt_upper_bound; [lia|].
    assert (0 < 2 ^ Z.of_nat (S f)) by (apply Z.pow_pos_nonneg; lia). lia. }
  destruct (Hlt _ H1), (Hlt _ H2).
  apply IH; auto. apply Z.div_pos; lia.
Qed.

Lemma log2_fuel n : 0 <= n -> n < 2 ^ Z.of_nat (S (Z.to_nat (Z.log2 n))).
Proof.
  intros H. destruct (Z.eq_dec n 0) as [->|Hz]; [simpl; lia|].
  rewrite Nat2Z.inj_succ, Z2Nat.id by apply Z.log2_nonneg.
  destruct (Z.log2_spec n); lia.
Qed.

Lemma hexmin_step n : 0 <= n ->
  hexmin n = if n <? 16 then [hexdig n] else hexmin (n / 16) ++ [hexdig (n mod 16)].
Proof.
  intros H. unfold hexmin.
  destruct (n <? 16) eqn:E.
  - simpl. rewrite Z.div_small, Z.mod_small by lia. reflexivity.
  - set (k := Z.to_nat (Z.log2 n)).
    assert (Hk : hex_fuel (S k) n [] = hex_fuel k (n / 16) [hexdig (n mod 16)]).
    { simpl. destruct (n / 16 =? 0) eqn:E2; [|reflexivity].
      apply Z.eqb_eq in E2. lia. }
    rewrite Hk.
    change [hexdig (n mod 16)] with ([] ++ [hexdig (n mod 16)]) at 1.
    rewrite hex_fuel_app. f_equal.
    assert (H16 : n / 16 < 2 ^ Z.of_nat k).
    { pose proof (log2_fuel n H) as Hl. fold k in Hl.
      rewrite Nat2Z.inj_succ, Z.pow_succ_r in Hl by lia.
      apply Z.div_lt_upper_bound; [lia|].
      assert (0 < 2 ^ Z.of_nat k) by (apply Z.pow_pos_nonneg; lia). lia. }
    apply hex_fuel_enough.
    + apply Z.div_pos; lia.
    + exact H16.
    + apply log2_fuel. apply Z.div_pos; lia.
    + assert (1 <= Z.log2 n). { apply Z.log2_le_pow2; lia. } lia.
    + lia.
Qed.

Lemma hexmin_0 : hexmin 0 = [48]. Proof. reflexivity. Qed.

Lemma hexmin_nonempty n : 0 <= n -> hexmin n <> [].
Proof.
  intros H. rewrite hexmin_step by lia. destruct (n <? 16); [discriminate|].
  intros E. apply app_eq_nil in E. destruct E as [_ E]; discriminate.
Qed.

Lemma hexfix_small w n : 0 <= n < 16 ->
  hexfix (S w) n = repeat 48 w ++ [hexdig n].
Proof.
  revert n; induction w as [|w IH]; intros n H.
  - simpl. rewrite Z.mod_small by lia. reflexivity.
  - change (hexfix (S (S w)) n) with (hexfix (S w) (n / 16) ++ [hexdig (n mod 16)]).
    rewrite Z.div_small, IH, (Z.mod_small n) by lia.
    change (hexdig 0) with 48.
    rewrite <- repeat_cons. reflexivity.
Qed.

Lemma hexw_fix w n : 0 <= n < 16 ^ Z.of_nat w -> (1 <= w)%nat -> hexw w n = hexfix w n.
Proof.
  revert n; induction w as [|w IH]; intros n H Hw; [lia|].
  unfold hexw. rewrite hexmin_step by lia.
  destruct (n <? 16) eqn:E.
  - rewrite hexfix_small by lia. simpl. rewrite Nat.sub_0_r. reflexivity.
  - cbn [hexfix].
    rewrite Nat2Z.inj_succ, Z.pow_succ_r in H by lia.
    destruct w as [|w]; [simpl in H; lia|].
    rewrite <- IH; [|split; [apply Z.div_pos; lia|apply Z.div_lt_upper_bound; lia]|lia].
    unfold hexw. rewrite app_length. simpl length.
    rewrite <- app_assoc. f_equal. f_equal. lia.
Qed.

Lemma hexw_2 n : 0 <= n < 256 -> hexw 2 n = [hexdig (n / 16); hexdig (n mod 16)].
Proof.
  intros H. rewrite hexw_fix by (simpl; lia). cbn [hexfix app].
  rewrite (Z.mod_small (n / 16)) by lia. reflexivity.
Qed.

Lemma hexw_4 n : 0 <= n < 65536 ->
  hexw 4 n = [hexdig (n / 256 / 16); hexdig (n / 256 mod 16);
              hexdig (n mod 256 / 16); hexdig (n mod 256 mod 16)].
Proof.
  intros H. rewrite hexw_fix by (simpl; lia). cbn [hexfix app].
  replace (n / 16 / 16 / 16 mod 16) with (n / 256 / 16) by lia.
  replace (n / 16 / 16 mod 16) with (n / 256 mod 16) by lia.
  replace (n / 16 mod 16) with (n mod 256 / 16) by lia.
  replace (n mod 16) with (n mod 256 mod 16) by lia.
  reflexivity.
Qed.

Lemma eqbl_eq a b : eqbl a b = true <-> a = b.
Proof.
  revert b; induction a as [|x a IH]; intros [|y b]; simpl; split; intros H;
    try reflexivity; try discriminate.
  - apply andb_true_iff in H. destruct H as [H1 H2].
    apply Z.eqb_eq in H1. apply IH in H2. congruence.
  - injection H as -> ->. rewrite Z.eqb_refl. simpl. apply IH. reflexivity.
Qed.

Lemma eqbl_refl a : eqbl a a = true.
Proof. apply eqbl_eq. reflexivity. Qed.
