(** Operand encoding, relative jumps and queued RST operands (C08, C09, C15). *)
From Verif Require Import Base BaseProofs State UtilsModel ErrorsModel StorageModel ParserModel PassTwoModel
  MonadProofs PassTwoSpec PassTwoProofs OpcodeTables MainModel Validate Programs.

Definition wide (t : arg_type) (k : Z) : Prop :=
  t = ARG_NUM_8 /\ k = 1 \/ t = ARG_NUM_16 /\ k = 2 \/ t = ARG_NUM_24 /\ k = 3.

(** Plain operands: [k] bytes, least significant first, holding the value modulo 256^k; at most
    a warning is recorded. *)
Theorem c08_plain_operands : forall C v t k z o s, wide t k -> room k s ->
  exists bs s1, write_arg C v t z o s = Ok tt (emitted bs s1) /\
    zlen bs = k /\ bytes bs /\ le_number bs = v mod 256 ^ k /\
    (s1 = s \/ exists code, s1 = noted true code s).
Proof.
  intros C v t k z o s [[-> ->]|[[-> ->]|[-> ->]]] Hr.
  - eexists _, _. split; [apply write_arg_8; exact Hr|]. split; [reflexivity|]. split.
    + repeat constructor; unfold is_byte; lia.
    + split; [cbn [le_number]; lia|]. destruct ((v <? -128) || (255 <? v)); eauto.
  - eexists _, _. split; [apply write_arg_16; exact Hr|]. split; [reflexivity|]. split.
    + repeat constructor; unfold is_byte; lia.
    + split; [cbn [le_number]; change (256 ^ 2) with 65536; lia|].
      destruct (c_ez80 C && _); eauto.
  - eexists _, _. split; [apply write_arg_24; exact Hr|]. split; [reflexivity|]. split.
    + repeat constructor; unfold is_byte; lia.
    + split; [cbn [le_number]; change (256 ^ 3) with 16777216|auto].
      replace (v / 65536) with (v / 256 / 256) by (rewrite Z.div_div by lia; reflexivity). lia.
Qed.
Example c08_plain_case :
  room 3 blank /\ write_arg (mkconf (world_of []) args0) (-2) ARG_NUM_24 0 0 blank = Ok tt (emitted [254; 255; 255] blank).
Proof. split; [vm_compute; split; discriminate|reflexivity]. Qed.

(** The 8-bit warning is given exactly for values that are neither a signed nor an unsigned
    byte. *)
Theorem c08_truncation_warning : forall C v z o s, room 1 s ->
  exists s1, write_arg C v ARG_NUM_8 z o s = Ok tt (emitted [v mod 256] s1) /\
    (-128 <= v <= 255 -> s1 = s) /\ (~ -128 <= v <= 255 -> s1 = noted true 2048 s).
Proof.
  intros C v z o s Hr. eexists. split; [apply write_arg_8; exact Hr|].
  destruct ((v <? -128) || (255 <? v)) eqn:E; split; intros H; try reflexivity; lia.
Qed.

(** Index displacements. *)
Theorem c08_index_displacement : forall C v z o s, room 1 s ->
  (-128 <= v <= 127 -> exists b, is_byte b /\ signed_byte b = v /\
     write_arg C v ARG_IX_IY_OFFSET z o s = Ok tt (emitted [b] s)) /\
  (~ -128 <= v <= 127 ->
     write_arg C v ARG_IX_IY_OFFSET z o s = Ok tt (emitted [0] (noted false 289 s))).
Proof.
  intros C v z o s Hr. rewrite (write_arg_index C v z o s Hr). split; intros H.
  - exists (v mod 256). replace ((-128 <=? v) && (v <=? 127)) with true by lia.
    split; [unfold is_byte; lia|]. split; [unfold signed_byte; destruct (Z.ltb_spec (v mod 256) 128); lia|reflexivity].
  - replace ((-128 <=? v) && (v <=? 127)) with false by lia. reflexivity.
Qed.
Example c08_index_case :
  write_arg (mkconf (world_of []) args0) (-128) ARG_IX_IY_OFFSET 3 0 blank = Ok tt (emitted [128] blank) /\
  write_arg (mkconf (world_of []) args0) 128 ARG_IX_IY_OFFSET 3 0 blank = Ok tt (emitted [0] (noted false 289 blank)).
Proof. split; reflexivity. Qed.

Lemma lor_byte a b : is_byte a -> is_byte b -> is_byte (Z.lor a b).
Proof.
  intros Ha Hb. unfold is_byte in *. split; [apply Z.lor_nonneg; lia|].
  destruct (Z.eq_dec (Z.lor a b) 0) as [->|Hn]; [lia|].
  apply Z.log2_lt_cancel. change (Z.log2 256) with 8.
  rewrite Z.log2_lor by lia.
  apply Z.max_lub_lt.
  - destruct (Z.eq_dec a 0) as [->|]; [simpl; lia|]. apply Z.log2_lt_pow2; [lia|]. lia.
  - destruct (Z.eq_dec b 0) as [->|]; [simpl; lia|]. apply Z.log2_lt_pow2; [lia|]. lia.
Qed.

(** Bit numbers: bits 3..5 get the number, every other bit is the base opcode's. *)
Theorem c08_bit_number : forall C v z o s, room 1 s -> is_byte o ->
  (0 <= v <= 7 -> exists b, is_byte b /\ write_arg C v ARG_BIT_NUM z o s = Ok tt (emitted [b] s) /\
     (forall i, 0 <= i -> ~ 3 <= i <= 5 -> Z.testbit b i = Z.testbit o i) /\
     (Z.land o 56 = 0 -> b / 8 mod 8 = v)) /\
  (~ 0 <= v <= 7 -> write_arg C v ARG_BIT_NUM z o s = Ok tt (emitted [o] (alarmed 2 s))).
Proof.
  intros C v z o s Hr Ho. rewrite (write_arg_bit C v z o s Hr). split; intros H.
  - exists (Z.lor (v * 8) o). replace ((0 <=? v) && (v <=? 7)) with true by lia.
    assert (Hb : is_byte (Z.lor (v * 8) o)) by (apply lor_byte; [unfold is_byte; lia|exact Ho]).
    split; [exact Hb|]. split; [unfold u8; rewrite Z.mod_small by exact Hb; reflexivity|]. split.
    + intros i Hi Hout. rewrite Z.lor_spec. change 8 with (2 ^ 3). rewrite Z.mul_pow2_bits by lia.
      replace (Z.testbit v (i - 3)) with false; [reflexivity|]. symmetry.
      destruct (Z.ltb_spec i 3) as [Hl|Hl]; [apply Z.testbit_neg_r; lia|].
      destruct (Z.eq_dec v 0) as [->|Hv]; [apply Z.testbit_0_l|].
      apply Z.bits_above_log2; [lia|]. assert (Z.log2 v < 3) by (apply Z.log2_lt_pow2; lia). lia.
    + intros Hz. change 8 with (2 ^ 3) at 2 3. rewrite <- Z.land_ones, <- Z.shiftr_div_pow2 by lia.
      rewrite Z.shiftr_lor, Z.land_lor_distr_l.
      replace (Z.shiftr (v * 8) 3) with v by (rewrite Z.shiftr_div_pow2 by lia; change (2 ^ 3) with 8; rewrite Z.div_mul; lia).
      replace (Z.land (Z.shiftr o 3) (Z.ones 3)) with 0.
      * rewrite Z.lor_0_r, Z.land_ones by lia. change (2 ^ 3) with 8. apply Z.mod_small. lia.
      * symmetry. rewrite Z.land_ones, Z.shiftr_div_pow2 by lia. change (2 ^ 3) with 8.
        revert Hz. unfold is_byte in Ho.
        assert (Hall : forallb (fun o => negb (Z.land o 56 =? 0) || (o / 8 mod 8 =? 0)) (map Z.of_nat (seq 0 256)) = true)
          by (vm_compute; reflexivity).
        rewrite forallb_forall in Hall. intros Hz.
        assert (Hin : In o (map Z.of_nat (seq 0 256))).
        { apply in_map_iff. exists (Z.to_nat o). split; [lia|]. apply in_seq. lia. }
        specialize (Hall _ Hin). rewrite Hz in Hall. simpl in Hall. lia.
  - replace ((0 <=? v) && (v <=? 7)) with false by lia. unfold u8.
    rewrite Z.mod_small by exact Ho. reflexivity.
Qed.
(** In both built-in tables every form that takes a bit number leaves bits 3..5 free. *)
Theorem c08_bit_rows : forall o i, In o (opcode_list ++ opcode_list_ez80) -> In i (op_instrs o) ->
  In 94 (i_args i) -> i_has_end i = true /\ is_byte (i_end i) /\ Z.land (i_end i) 56 = 0.
Proof.
  assert (H : forallb (fun o => forallb (fun i => negb (memb 94 (i_args i)) ||
     (i_has_end i && (0 <=? i_end i) && (i_end i <? 256) && (Z.land (i_end i) 56 =? 0))) (op_instrs o))
     (opcode_list ++ opcode_list_ez80) = true) by (vm_compute; reflexivity).
  intros o i Ho Hi Hc. rewrite forallb_forall in H. specialize (H o Ho).
  rewrite forallb_forall in H. specialize (H i Hi).
  assert (Hm : memb 94 (i_args i) = true) by (apply existsb_exists; exists 94; split; [exact Hc|reflexivity]).
  rewrite Hm in H. simpl in H. unfold is_byte. rewrite !andb_true_iff in H.
  destruct H as [[[H1 H2] H3] H4]. apply Z.eqb_eq in H4. split; [exact H1|]. split; [lia|exact H4].
Qed.
Example c08_bit_case :
  is_byte 70 /\ write_arg (mkconf (world_of []) args0) 5 ARG_BIT_NUM 2 70 blank = Ok tt (emitted [110] blank).
Proof. split; [unfold is_byte; lia|reflexivity]. Qed.

(** Relative jumps.  [z] is the size of the instruction.  What is missing from the full claim:
    a displacement that would reach the target only by wrapping around the address space is
    not found (c09_relative_jump_refuted). *)
Theorem c09_relative_jump_partial : forall C v z o s, room 1 s -> 0 <= z <= 255 ->
  let here := s_pc s mod space C + z in
  (exists b, is_byte b /\ write_arg C v ARG_ADDR_OFFSET z o s = Ok tt (emitted [b] s) /\
     (s_pc s + z + signed_byte b) mod space C = v mod space C /\
     here + signed_byte b = v mod space C)
  \/ (write_arg C v ARG_ADDR_OFFSET z o s = Ok tt (emitted [0] (noted false 288 s)) /\
      forall b, is_byte b -> here + signed_byte b <> v mod space C).
Proof.
  intros C v z o s Hr Hz here. pose proof (write_arg_jump C v z o s Hr Hz) as H. cbv zeta in H.
  assert (Hs : space C = 16777216 \/ space C = 65536) by (unfold space; destruct (c_ez80 C); auto).
  replace (s_pc s mod space C + z) with here in H by reflexivity.
  destruct ((-128 <=? v mod space C - here) && (v mod space C - here <=? 127)) eqn:E.
  - left. exists ((v mod space C - here) mod 256). split; [unfold is_byte; lia|]. split; [exact H|].
    assert (Hsb : signed_byte ((v mod space C - here) mod 256) = v mod space C - here).
    { unfold signed_byte. destruct (Z.ltb_spec ((v mod space C - here) mod 256) 128); lia. }
    rewrite Hsb. split; [|lia].
    subst here. replace (s_pc s + z + (v mod space C - (s_pc s mod space C + z)))
      with (s_pc s - s_pc s mod space C + v mod space C) by lia.
    destruct Hs as [-> | ->]; lia.
  - right. split; [exact H|]. intros b Hb Heq. unfold signed_byte, is_byte in *.
    destruct (b <? 128) eqn:Eb; lia.
Qed.
Example c09_case :
  write_arg (mkconf (world_of []) args0) 0 ARG_ADDR_OFFSET 2 0 (set_pc 126 blank) = Ok tt (emitted [128] (set_pc 126 blank)) /\
  write_arg (mkconf (world_of []) args0) 0 ARG_ADDR_OFFSET 2 0 (set_pc 127 blank)
    = Ok tt (emitted [0] (noted false 288 (set_pc 127 blank))).
Proof. split; reflexivity. Qed.
(** From FFF0 the displacement 13h reaches address 5, which the processor does by wrapping, but
    the jump is rejected: no output, status 3, error 288. *)
Theorem c09_relative_jump_refuted :
  (65520 + 2 + signed_byte 19) mod 65536 = 5 /\
  assemble 60 [] (prog [".org $FFF0"; " jr 5"]%string) = Some (3, None, [288]).
Proof. split; vm_compute; reflexivity. Qed.

(** A queued RST operand is never encoded: whatever its value, the second pass records the
    invalid-operand error and writes nothing. *)
Theorem c15_rst_forward_never_encoded : forall C R e v s s',
  x_type e = ARG_RST ->
  (upd (set_pc (x_pc e)) ;;; upd (set_line (x_line e)) ;;; upd (set_file (x_file e)) ;;;
   set_curr_reusable (x_reus e) ;;; parse_num R (x_expr e)) s = Ok (Some v) s' ->
  second_pass_expr C R e s = Ok tt (noted false 295 s').
Proof.
  intros C R e v s s' Ht H. unfold second_pass_expr.
  rewrite !bind_upd in *.
  apply bind_inv_ok in H. destruct H as (u & s1 & H1 & H2).
  rewrite (bind_ok _ _ _ _ _ H1), (bind_ok _ _ _ _ _ H2). rewrite Ht.
  destruct (rst_ok v) eqn:E; [|reflexivity].
  unfold write_arg. rewrite rst_ok_199 by exact E. reflexivity.
Qed.
(** The same instruction with the vector defined after and before it. *)
Theorem c15_rst_forward_refuted :
  assemble 60 [] (prog [" rst vector"; "vector = $08"]%string) = Some (3, None, [295]) /\
  assemble 60 [] (prog ["vector = $08"; " rst vector"]%string) = Some (0, Some [207], []).
Proof. split; vm_compute; reflexivity. Qed.

Print Assumptions c08_plain_operands.
Print Assumptions c08_truncation_warning.
Print Assumptions c08_index_displacement.
Print Assumptions c08_bit_number.
Print Assumptions c08_bit_rows.
Print Assumptions c09_relative_jump_partial.
Print Assumptions c09_relative_jump_refuted.
Print Assumptions c15_rst_forward_never_encoded.
Print Assumptions c15_rst_forward_refuted.
