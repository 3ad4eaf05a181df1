(** Evaluation of operand expressions by the model. *)
From Verif Require Import Base BaseProofs State MonadProofs UtilsModel ErrorsModel StorageModel ParserModel Knot
  UtilsSpec UtilsProofs PassTwoSpec StorageProofs ParserSpec.

(** * Digits and literals *)

Lemma digit_value_val c d : digit_value c = Some d -> digit_val c = d /\ 0 <= d < 16 /\ isalnum c = true.
Proof.
  unfold digit_value, digit_val, isalnum, isalpha, isdigit, isupper, islower.
  destruct ((48 <=? c) && (c <=? 57)) eqn:E1; [intros [= <-]; lia|].
  destruct ((65 <=? c) && (c <=? 70)) eqn:E2.
  { intros [= <-]. replace ((65 <=? c) && (c <=? 90)) with true by lia. lia. }
  destruct ((97 <=? c) && (c <=? 102)) eqn:E3; [|discriminate].
  intros [= <-]. replace ((65 <=? c) && (c <=? 90)) with false by lia.
  replace ((97 <=? c) && (c <=? 122)) with true by lia. lia.
Qed.
Lemma digit_val_digit base c : base <= 16 -> digit_val c < base -> digit_of base c.
Proof.
  unfold digit_of, digit_value, digit_val, isdigit, isupper, islower. intros Hb.
  destruct ((48 <=? c) && (c <=? 57)) eqn:E1; [eauto|].
  destruct ((65 <=? c) && (c <=? 90)) eqn:E2.
  { intros. replace ((65 <=? c) && (c <=? 70)) with true by lia. eauto. }
  destruct ((97 <=? c) && (c <=? 122)) eqn:E3; [|lia].
  intros. replace ((65 <=? c) && (c <=? 70)) with false by lia.
  replace ((97 <=? c) && (c <=? 102)) with true by lia. eauto.
Qed.
Lemma digit_of_val base c : digit_of base c -> digit_val c <? base = true /\ isalnum c = true.
Proof. intros (d & E & H). apply digit_value_val in E. destruct E as (E & _ & Ha). split; [lia|exact Ha]. Qed.
Lemma not_digit base c : base <= 16 -> ~ digit_of base c -> digit_val c <? base = false.
Proof. intros Hb H. apply Z.ltb_ge. destruct (Z_lt_le_dec (digit_val c) base); [|assumption]. elim H. now apply digit_val_digit. Qed.

Definition numeral_from (base acc : Z) (ds : list Z) : Z :=
  fold_left (fun a c => a * base + match digit_value c with Some d => d | None => 0 end) ds acc.

Definition stop (base : Z) (r : list Z) : Prop := r = [] \/ exists c t, r = c :: t /\ ~ digit_of base c.

Lemma take_digits_ok base r : base <= 16 -> stop base r -> forall ds acc any, Forall (digit_of base) ds ->
  take_digits base acc any (ds ++ r) = (numeral_from base acc ds, any || negb (Nat.eqb (length ds) 0), r).
Proof.
  intros Hb Hr. induction ds as [|c ds IH]; intros acc any H.
  - simpl. rewrite orb_false_r. destruct Hr as [->|(c & t & -> & Hc)]; [reflexivity|].
    simpl. now rewrite (not_digit base c Hb Hc).
  - inversion H as [|? ? Hc Hd]; subst. destruct (digit_of_val _ _ Hc) as [E _].
    simpl. rewrite E, IH by assumption. rewrite orb_true_r. simpl.
    destruct Hc as (d & Ed & _). unfold numeral_from. simpl. rewrite Ed.
    destruct (digit_value_val _ _ Ed) as (-> & _). reflexivity.
Qed.
Lemma numeral_from_nonneg base ds : 0 <= base -> forall acc, 0 <= acc -> 0 <= numeral_from base acc ds.
Proof.
  intros Hb. induction ds as [|c ds IH]; intros acc H; simpl; [assumption|].
  apply IH. destruct (digit_value c) as [d|] eqn:E; [destruct (digit_value_val _ _ E)|]; nia.
Qed.
Lemma numeral_nonneg base ds : 0 <= base -> 0 <= numeral base ds.
Proof. intros. apply (numeral_from_nonneg base ds H 0). lia. Qed.

(** What may follow a literal: nothing, or a character that is not alphanumeric. *)
Definition apart (r : list Z) : Prop := isalnum (hd0 r) = false.
Lemma apart_stop base r : apart r -> stop base r.
Proof.
  intros H. destruct r as [|c t]; [now left|]. right. exists c, t. split; [reflexivity|].
  intros K. apply digit_of_val in K. unfold apart in H. simpl in H. destruct K. congruence.
Qed.
Lemma alnum_not_space c : isalnum c = true -> isspace c = false /\ c <> 45 /\ c <> 43.
Proof. unfold isalnum, isalpha, isupper, islower, isdigit, isspace. lia. Qed.

Lemma strtoll_ok base ds r : 0 <= base <= 16 -> ds <> [] -> Forall (digit_of base) ds -> stop base r ->
  hd0 r <> 120 -> hd0 r <> 88 ->
  strtoll base (ds ++ r) = (Z.min (numeral base ds) LLONG_MAX, r).
Proof.
  intros Hb Hn Hd Hr H1 H2. destruct ds as [|c ds]; [contradiction|]. clear Hn.
  assert (Hc : digit_of base c) by now inversion Hd.
  destruct (digit_of_val _ _ Hc) as [_ Ha]. destruct (alnum_not_space _ Ha) as (E1 & E2 & E3).
  assert (Hx : (base =? 16) && (hd0 ((c :: ds) ++ r) =? 48) && (tolower (hd1 ((c :: ds) ++ r)) =? 120) &&
    isxdigit (hd0 (tl (tl ((c :: ds) ++ r)))) = false).
  { assert (E : tolower (hd1 ((c :: ds) ++ r)) =? 120 = false).
    { destruct ds as [|c2 ds].
      - simpl. destruct r as [|x r]; [reflexivity|]. simpl in *. unfold tolower.
        destruct (isupper x) eqn:U; unfold isupper in U; lia.
      - simpl. inversion Hd as [|? ? _ Hd2]; subst. inversion Hd2 as [|? ? Hc2 _]; subst.
        destruct Hc2 as (d & Ed & _). unfold digit_value in Ed. unfold tolower, isupper.
        destruct ((48 <=? c2) && (c2 <=? 57)) eqn:Q1; [|destruct ((65 <=? c2) && (c2 <=? 70)) eqn:Q2;
          [|destruct ((97 <=? c2) && (c2 <=? 102)) eqn:Q3; [|discriminate]]];
          destruct ((65 <=? c2) && (c2 <=? 90)); lia. }
    rewrite E. now rewrite andb_false_r. }
  unfold strtoll. cbn [app drop_space]. rewrite E1. cbn [hd0].
  apply Z.eqb_neq in E2, E3. rewrite E2, E3. cbv beta iota zeta delta [orb].
  cbn [app] in Hx. rewrite Hx.
  change (c :: ds ++ r) with ((c :: ds) ++ r).
  rewrite (take_digits_ok base r ltac:(lia) Hr (c :: ds) 0 false Hd). cbn [length Nat.eqb negb orb].
  change (numeral_from base 0 (c :: ds)) with (numeral base (c :: ds)).
  pose proof (numeral_nonneg base (c :: ds) ltac:(lia)) as H0. unfold LLONG_MIN, LLONG_MAX.
  replace (numeral base (c :: ds) <? -9223372036854775808) with false by lia.
  f_equal. destruct (9223372036854775807 <? numeral base (c :: ds)) eqn:E; lia.
Qed.

Lemma signed32_wrap v : wrap32 v = signed32 v.
Proof. unfold wrap32, signed32. cbv zeta. destruct (v mod 4294967296 <? 2147483648) eqn:E; lia. Qed.

(** The value of a literal and the state after it was read. *)
Definition number_read (n : Z) (s : st) : res (option Z) :=
  if n <=? 4294967295 then Ok (Some (signed32 n)) s else Ok None (noted false 516 s).

Lemma conv_ok base code ds r s : 0 <= base <= 16 -> ds <> [] -> Forall (digit_of base) ds -> stop base r ->
  hd0 r <> 120 -> hd0 r <> 88 ->
  conv_generic base code (ds ++ r) r s = number_read (numeral base ds) s.
Proof.
  intros Hb Hn Hd Hr H1 H2. unfold conv_generic. rewrite strtoll_ok by assumption.
  pose proof (numeral_nonneg base ds ltac:(lia)) as H0.
  replace (Nat.ltb (length r) (length r)) with false by (symmetry; apply Nat.ltb_irrefl).
  unfold number_read, INT_MIN, UINT_MAX, LLONG_MAX.
  destruct (numeral base ds <=? 4294967295) eqn:E.
  - replace (Z.min (numeral base ds) 9223372036854775807) with (numeral base ds) by lia.
    replace ((numeral base ds <? -2147483648) || (4294967295 <? numeral base ds)) with false by lia.
    rewrite signed32_wrap. reflexivity.
  - replace ((Z.min (numeral base ds) 9223372036854775807 <? -2147483648) ||
      (4294967295 <? Z.min (numeral base ds) 9223372036854775807)) with true by lia.
    reflexivity.
Qed.

Lemma digits_alnum base ds : Forall (digit_of base) ds -> Forall (fun c => isalnum c = true) ds.
Proof. apply Forall_impl. intros c H. now apply digit_of_val in H. Qed.
Lemma skip_alnum_app ds r : Forall (fun c => isalnum c = true) ds -> apart r -> skip_alnum (ds ++ r) = r.
Proof.
  intros Hd Hr. induction Hd as [|c ds Hc _ IH]; simpl; [|now rewrite Hc].
  destruct r as [|c t]; [reflexivity|]. unfold apart in Hr. simpl in *. now rewrite Hr.
Qed.
Lemma last_alnum_app ds x r : Forall (fun c => isalnum c = true) ds -> isalnum x = true -> apart r ->
  last_alnum (ds ++ x :: r) = x :: r.
Proof.
  intros Hd Hx Hr. induction Hd as [|c ds Hc Hd IH].
  - simpl. destruct r as [|c t]; [reflexivity|]. unfold apart in Hr. simpl in *. now rewrite Hr.
  - cbn [app last_alnum]. destruct (ds ++ x :: r) as [|y q] eqn:E; [now destruct ds|].
    assert (Hy : isalnum y = true).
    { destruct ds as [|z ds]; injection E as <- _; [assumption|]. now inversion Hd. }
    rewrite Hy. exact IH.
Qed.

(** * Atoms *)

Lemma name_char_iff c : is_name_char c = true <-> name_char c.
Proof.
  unfold is_name_char, name_char. rewrite orb_true_iff, memb_In.
  unfold isalnum, isalpha, isupper, islower, isdigit. simpl. intuition lia.
Qed.
Lemma name_alnum c : is_name_char c = false -> isalnum c = false.
Proof. unfold is_name_char. now destruct (isalnum c). Qed.
Lemma skip_name_app n r : Forall name_char n -> is_name_char (hd0 r) = false -> skip_to_name_end (n ++ r) = r.
Proof.
  intros Hn Hr. induction Hn as [|c n Hc _ IH]; simpl.
  - destruct r as [|c t]; [reflexivity|]. simpl in *. now rewrite Hr.
  - apply name_char_iff in Hc. now rewrite Hc.
Qed.
Lemma seg_app a b : seg (a ++ b) b = a.
Proof.
  unfold seg. rewrite app_length. replace (Nat.leb (length b) (length a + length b)) with true
    by (symmetry; apply Nat.leb_le; lia).
  replace (length a + length b - length b)%nat with (length a) by lia.
  rewrite firstn_app, firstn_all, Nat.sub_diag. simpl. apply app_nil_r.
Qed.

(** The state while an expression is evaluated. *)
Definition at_ (s0 : st) (d : Z) : st := set_depth d (set_fwd false s0).
Lemma at_step s d d' : set_depth d' (set_fwd false (at_ s d)) = at_ s d'.
Proof. destruct s. reflexivity. Qed.
Lemma at_back s d : set_depth (s_depth (at_ s (d + 1)) - 1) (at_ s (d + 1)) = at_ s d.
Proof. change (s_depth (at_ s (d + 1))) with (d + 1). rewrite Z.add_simpl_r. destruct s. reflexivity. Qed.
Definition yields {A} (s0 : st) (a : answer) (good : Z -> res (option A)) (r : res (option A)) : Prop :=
  match a with
  | Val v => r = good v
  | Err c => exists d, r = Ok None (noted false c (set_depth d (set_fwd (c =? 262) s0)))
  | Undefined => r = Undef UB_overflow
  end.

(** A name has the value [names] gives: it is not a macro parameter, and it is that label; or it
    is no parameter, label or define at all. *)
Definition resolves (C : cfg) (s : st) (names : list Z -> option Z) (n : list Z) : Prop :=
  find_arg (key C n) (s_args s) = None /\
  match names n with
  | Some v => exists l, tfind (key C n) (s_labels s) = Some l /\ l_value l = v
  | None => tfind (key C n) (s_labels s) = None /\ tfind (key C n) (s_defines s) = None
  end.

Definition follows (nm : bool) (r : list Z) : Prop :=
  if nm then is_name_char (hd0 r) = false /\ hd0 r <> 40 else isalnum (hd0 r) = false.
Definition atom_name (a : atom) : bool := match a with Name _ => true | _ => false end.

Lemma number_yields s0 d r l v : v = literal_number l -> 
  yields s0 (atom_value 0 (fun _ => None) (Num l)) (fun v => Ok (Some (r, Some v)) (at_ s0 d))
    (bind (fun s => number_read v s) (fun v => ret (num_result r v)) (at_ s0 d)).
Proof.
  intros ->. unfold number_read, bind, yields. simpl.
  destruct (literal_number l <=? 4294967295); [reflexivity|]. simpl. exists d. reflexivity.
Qed.

Lemma parse_single_digit C R c p : isdigit c = true ->
  parse_single C R (c :: p) =
    (let e := last_alnum (c :: p) in
     let u := toupper (hd0 e) in
     v <- (if u =? 72 then conv_hex (c :: p) e
           else if u =? 66 then conv_bin (c :: p) e
           else if u =? 68 then conv_dec (c :: p) e
           else conv_dec (c :: p) (tl e)) ;;
     ret (num_result (tl e) v)).
Proof.
  intros H. unfold isdigit in H. unfold parse_single. cbn [hd0].
  replace (c =? 43) with false by lia. replace (c =? 45) with false by lia.
  replace (c =? 36) with false by lia. replace (c =? 37) with false by lia.
  replace (c =? 39) with false by lia. unfold isalpha, isupper, islower, isdigit.
  replace ((65 <=? c) && (c <=? 90) || (97 <=? c) && (c <=? 122) || (c =? 95)) with false by lia.
  replace ((48 <=? c) && (c <=? 57)) with true by lia. reflexivity.
Qed.
Lemma parse_single_suffixed C R ds x r base conv code s l :
  (conv = conv_generic base code) -> 0 <= base <= 16 ->
  ds <> [] -> Forall (digit_of base) ds -> isdigit (hd 0 ds) = true -> isalnum x = true -> ~ digit_of base x ->
  x <> 120 -> x <> 88 -> apart r -> numeral base ds = literal_number l ->
  (forall p e, (if toupper x =? 72 then conv_hex p e else if toupper x =? 66 then conv_bin p e
      else if toupper x =? 68 then conv_dec p e else conv_dec p (tl e)) = conv p e) ->
  parse_single C R ((ds ++ [x]) ++ r) s = bind (fun s => number_read (literal_number l) s) (fun v => ret (num_result r v)) s.
Proof.
  intros Hc Hb Hn Hd Hh Hx Hxb Hx1 Hx2 Hr Hv Hs.
  assert (E0 : exists c p, (ds ++ [x]) ++ r = c :: p /\ isdigit c = true).
  { destruct ds as [|c ds]; [contradiction|]. exists c. eexists. split; [reflexivity|]. exact Hh. }
  destruct E0 as (c & p & E0 & Hcd).
  rewrite E0, parse_single_digit by assumption. rewrite <- E0. cbv zeta.
  rewrite <- app_assoc. change ([x] ++ r) with (x :: r).
  rewrite last_alnum_app by (try apply (digits_alnum base); assumption).
  cbn [hd0 tl]. specialize (Hs (ds ++ x :: r) (x :: r)). cbn [tl] in Hs. rewrite Hs, Hc.
  unfold bind. rewrite conv_ok; [now rewrite Hv|assumption|assumption|assumption| |simpl; lia|simpl; lia].
  right. eauto.
Qed.

(** What reading a name must do for [names] to be right about it. *)
Definition name_reads (C : cfg) (R : fns) (s0 : st) (names : list Z -> option Z) (d : Z) (n : list Z) : Prop :=
  forall r, follows true r ->
  yields s0 (atom_value 0 names (Name n)) (fun v => Ok (Some (r, Some v)) (at_ s0 d))
    (parse_name C R (n ++ r) (at_ s0 d)).
Lemma resolves_reads C R s0 names d n : name_ok n -> resolves C s0 names n -> name_reads C R s0 names d n.
Proof.
  intros (Hu & _ & Hall) (Hl & Hn) r (Hf & Hp).
  unfold parse_name. rewrite skip_name_app by assumption. rewrite seg_app.
  apply eqbl_neq in Hu. rewrite Hu.
  unfold search_local_defines. rewrite bind_assoc, bind_get. simpl s_args.
  rewrite Hl, bind_ret. unfold search_labels. rewrite bind_assoc, bind_get. simpl s_labels. rewrite bind_ret.
  simpl atom_value. destruct (names n) as [v|].
  + destruct Hn as (l & Et & <-). rewrite Et. rewrite bind_ret. reflexivity.
  + destruct Hn as (Et & Ed). rewrite Et. unfold search_defines.
    rewrite bind_assoc, bind_get. simpl s_args. rewrite bind_assoc, bind_get. simpl s_defines. rewrite Hl, Ed.
    rewrite bind_assoc.
    assert (Hq : forall (k : unit -> M (option (text * option Z))),
      bind (if eqbl (key C n) (zs "__LINE") then ln <- get s_line ;; ret tt
            else if eqbl (key C n) (zs "__FILE") then f <- get s_file ;; ret tt else ret tt) k (at_ s0 d)
      = k tt (at_ s0 d)).
    { intros k. destruct (eqbl (key C n) (zs "__LINE")); [reflexivity|].
      destruct (eqbl (key C n) (zs "__FILE")); reflexivity. }
    rewrite Hq, bind_ret. clear Hq.
    apply Z.eqb_neq in Hp. rewrite Hp, !andb_false_r. simpl. exists d. reflexivity.
Qed.

Lemma atom_single C R s0 names a r d : atom_ok a -> follows (atom_name a) r ->
  (forall n, a = Name n -> name_reads C R s0 names d n) ->
  yields s0 (atom_value (s_pc s0) names a) (fun v => Ok (Some (r, Some v)) (at_ s0 d))
    (parse_single C R (atom_text a ++ r) (at_ s0 d)).
Proof.
  intros Ha Hf Hn. destruct a as [l| |n|c|c]; cbn [atom_text atom_ok atom_name] in *.
  - (* a number *)
    change (atom_value (s_pc s0) names (Num l)) with (atom_value 0 (fun _ => None) (Num l)).
    simpl in Hf. assert (Hr : apart r) by exact Hf.
    assert (Hx1 : hd0 r <> 120) by (intros K; unfold apart in Hr; rewrite K in Hr; discriminate).
    assert (Hx2 : hd0 r <> 88) by (intros K; unfold apart in Hr; rewrite K in Hr; discriminate).
    destruct Ha as (H1 & H2 & H3).
    destruct l as [ds|ds h|ds|ds b|ds|ds x]; cbn [literal_text literal_digits literal_base] in *.
    + (* $1F *)
      unfold parse_single. cbn [app hd0]. change (36 =? 43) with false. change (36 =? 45) with false.
      change (36 =? 36) with true. cbv beta iota zeta. cbn [tl].
      assert (Hx : isxdigit (hd0 (ds ++ r)) = true).
      { destruct ds as [|c ds]; [contradiction|]. simpl. inversion H2 as [|? ? (v & Ev & _) _]; subst.
        unfold digit_value in Ev. unfold isxdigit, isdigit.
        destruct ((48 <=? c) && (c <=? 57)); [reflexivity|]. destruct ((65 <=? c) && (c <=? 70)); [reflexivity|].
        destruct ((97 <=? c) && (c <=? 102)); [reflexivity|discriminate]. }
      rewrite Hx. rewrite skip_alnum_app by (try apply (digits_alnum 16); assumption).
      unfold conv_hex. unfold bind at 1. rewrite conv_ok by (auto using apart_stop; lia).
      apply (number_yields s0 d r (HexDollar ds)). reflexivity.
    + (* 1Fh *)
      destruct H3 as (Hh & H10). rewrite (parse_single_suffixed C R ds h r 16 conv_hex SPASM_ERR_INVALID_HEX_DIGIT _ (HexSuffix ds h));
        [now apply (number_yields s0 d r (HexSuffix ds h))|reflexivity|lia|assumption|assumption| | | | | |assumption|reflexivity|].
      * destruct H10 as (v & Ev & Hv). unfold digit_value in Ev. unfold isdigit.
        destruct ((48 <=? hd 0 ds) && (hd 0 ds <=? 57)); [reflexivity|].
        destruct ((65 <=? hd 0 ds) && (hd 0 ds <=? 70)) eqn:E2; [injection Ev as <-; lia|].
        destruct ((97 <=? hd 0 ds) && (hd 0 ds <=? 102)) eqn:E3; [injection Ev as <-; lia|discriminate].
      * destruct Hh as [-> | ->]; reflexivity.
      * intros (v & Ev & _). destruct Hh as [-> | ->]; discriminate.
      * lia.
      * lia.
      * intros p e. destruct Hh as [-> | ->]; reflexivity.
    + (* %101 *)
      unfold parse_single. cbn [app hd0]. change (37 =? 43) with false. change (37 =? 45) with false.
      change (37 =? 36) with false. change (37 =? 37) with true. cbv beta iota zeta. cbn [tl].
      rewrite skip_alnum_app by (try apply (digits_alnum 2); assumption).
      unfold conv_bin. unfold bind at 1. rewrite conv_ok by (auto using apart_stop; lia).
      apply (number_yields s0 d r (BinPercent ds)). reflexivity.
    + (* 101b *)
      rewrite (parse_single_suffixed C R ds b r 2 conv_bin SPASM_ERR_INVALID_BINARY_DIGIT _ (BinSuffix ds b));
        [now apply (number_yields s0 d r (BinSuffix ds b))|reflexivity|lia|assumption|assumption| | | | | |assumption|reflexivity|].
      * destruct ds as [|c ds]; [contradiction|]. inversion H2 as [|? ? (v & Ev & Hv) _]; subst. simpl.
        unfold digit_value in Ev. unfold isdigit.
        destruct ((48 <=? c) && (c <=? 57)); [reflexivity|].
        destruct ((65 <=? c) && (c <=? 70)) eqn:E2; [injection Ev as <-; lia|].
        destruct ((97 <=? c) && (c <=? 102)) eqn:E3; [injection Ev as <-; lia|discriminate].
      * destruct H3 as [-> | ->]; reflexivity.
      * intros (v & Ev & Hv). destruct H3 as [-> | ->]; injection Ev as <-; lia.
      * lia.
      * lia.
      * intros p e. destruct H3 as [-> | ->]; reflexivity.
    + (* 31 *)
      assert (Hdig : Forall (fun c => isdigit c = true) ds).
      { eapply Forall_impl; [|exact H2]. intros c (v & Ev & Hv). unfold digit_value in Ev. unfold isdigit.
        destruct ((48 <=? c) && (c <=? 57)); [reflexivity|].
        destruct ((65 <=? c) && (c <=? 70)) eqn:E2; [injection Ev as <-; lia|].
        destruct ((97 <=? c) && (c <=? 102)) eqn:E3; [injection Ev as <-; lia|discriminate]. }
      destruct (exists_last H1) as (ds' & x & ->).
      apply Forall_app in Hdig. destruct Hdig as (Hd1 & Hd2). inversion Hd2 as [|? ? Hx _]; subst.
      assert (E0 : exists c p, (ds' ++ [x]) ++ r = c :: p /\ isdigit c = true).
      { destruct ds' as [|c ds']; [exists x; eexists; split; [reflexivity|assumption]|].
        exists c. eexists. split; [reflexivity|]. now inversion Hd1. }
      destruct E0 as (c & p & E0 & Hc). rewrite E0, parse_single_digit by assumption. rewrite <- E0. cbv zeta.
      assert (El : last_alnum ((ds' ++ [x]) ++ r) = x :: r).
      { rewrite <- app_assoc. simpl. apply last_alnum_app; [|unfold isalnum; now rewrite Hx, orb_true_r|assumption].
        eapply Forall_impl; [|exact Hd1]. intros y Hy. unfold isalnum. now rewrite Hy, orb_true_r. }
      rewrite El. cbn [hd0 tl]. unfold isdigit in Hx. unfold toupper, islower.
      replace ((97 <=? x) && (x <=? 122)) with false by lia.
      replace (x =? 72) with false by lia. replace (x =? 66) with false by lia. replace (x =? 68) with false by lia.
      unfold conv_dec. unfold bind at 1. rewrite conv_ok by (auto using apart_stop; lia).
      apply (number_yields s0 d r (Decimal (ds' ++ [x]))). reflexivity.
    + (* 31d *)
      rewrite (parse_single_suffixed C R ds x r 10 conv_dec SPASM_ERR_INVALID_DECIMAL_DIGIT _ (DecSuffix ds x));
        [now apply (number_yields s0 d r (DecSuffix ds x))|reflexivity|lia|assumption|assumption| | | | | |assumption|reflexivity|].
      * destruct ds as [|c ds]; [contradiction|]. inversion H2 as [|? ? (v & Ev & Hv) _]; subst. simpl.
        unfold digit_value in Ev. unfold isdigit.
        destruct ((48 <=? c) && (c <=? 57)); [reflexivity|].
        destruct ((65 <=? c) && (c <=? 70)) eqn:E2; [injection Ev as <-; lia|].
        destruct ((97 <=? c) && (c <=? 102)) eqn:E3; [injection Ev as <-; lia|discriminate].
      * destruct H3 as [-> | ->]; reflexivity.
      * intros (v & Ev & Hv). destruct H3 as [-> | ->]; injection Ev as <-; lia.
      * lia.
      * lia.
      * intros p e. destruct H3 as [-> | ->]; reflexivity.
  - (* the address counter *)
    unfold parse_single. change (zs "$" ++ r) with (36 :: r). cbn [hd0]. change (36 =? 43) with false.
    change (36 =? 45) with false. change (36 =? 36) with true. cbv beta iota zeta. cbn [tl].
    assert (Hx : isxdigit (hd0 r) = false).
    { simpl in Hf. unfold isalnum, isalpha, isupper, islower, isdigit in Hf. unfold isxdigit, isdigit. lia. }
    rewrite Hx. unfold yields, atom_value. rewrite <- signed32_wrap. reflexivity.
  - (* a name *)
    specialize (Hn n eq_refl r Hf). destruct Ha as (_ & (c & t & En & Hc) & _).
    assert (E : parse_single C R (n ++ r) = parse_name C R (n ++ r)).
    { subst n. unfold parse_single. cbn [app hd0]. unfold name_start in Hc.
      replace (c =? 43) with false by lia. replace (c =? 45) with false by lia.
      replace (c =? 36) with false by lia. replace (c =? 37) with false by lia. replace (c =? 39) with false by lia.
      unfold isalpha, isupper, islower.
      replace ((65 <=? c) && (c <=? 90) || (97 <=? c) && (c <=? 122) || (c =? 95)) with true by lia. reflexivity. }
    rewrite E. exact Hn.
  - (* a quoted character *)
    unfold parse_single. cbn [app hd0]. change (39 =? 43) with false. change (39 =? 45) with false.
    change (39 =? 36) with false. change (39 =? 37) with false. change (39 =? 39) with true. cbv beta iota zeta.
    cbn [tl]. apply Z.eqb_neq in Ha. rewrite Ha. reflexivity.
  - (* an escape *)
    unfold parse_single. cbn [app hd0]. change (39 =? 43) with false. change (39 =? 45) with false.
    change (39 =? 36) with false. change (39 =? 37) with false. change (39 =? 39) with true. cbv beta iota zeta.
    cbn [tl]. change (92 =? 92) with true. cbv iota.
    assert (E : char_escape C c (at_ s0 d) = Ok (escape_value c) (at_ s0 d)).
    { unfold char_escape, escape_value, toupper, islower. cbv zeta.
      destruct ((97 <=? c) && (c <=? 122)) eqn:L.
      - replace (c - 32 =? 92) with false by lia. replace (c - 32 =? 48) with false by lia.
        replace (c - 32 =? 39) with false by lia. replace (c - 32 =? 35) with false by lia.
        replace (c =? 48) with false by lia. replace (c =? 78) with false by lia.
        replace (c =? 82) with false by lia. replace (c =? 84) with false by lia. rewrite !orb_false_r.
        destruct (c - 32 =? 78) eqn:E1; [replace (c =? 110) with true by lia; reflexivity|].
        replace (c =? 110) with false by lia.
        destruct (c - 32 =? 82) eqn:E2; [replace (c =? 114) with true by lia; reflexivity|].
        replace (c =? 114) with false by lia.
        destruct (c - 32 =? 84) eqn:E3; [replace (c =? 116) with true by lia; reflexivity|].
        replace (c =? 116) with false by lia. reflexivity.
      - replace (c =? 110) with false by lia. replace (c =? 114) with false by lia.
        replace (c =? 116) with false by lia. cbn [orb].
        destruct (c =? 78) eqn:E1; [reflexivity|].
        destruct (c =? 92) eqn:E2; [apply Z.eqb_eq in E2; subst; reflexivity|].
        destruct (c =? 48) eqn:E3; [apply Z.eqb_eq in E3; subst; reflexivity|].
        destruct (c =? 82) eqn:E4; [reflexivity|].
        destruct (c =? 84) eqn:E5; [reflexivity|].
        destruct (c =? 39) eqn:E6; [apply Z.eqb_eq in E6; subst; reflexivity|].
        apply Z.eqb_neq in Ha. rewrite Ha. reflexivity. }
    rewrite bind_assoc. rewrite (bind_ok _ _ _ _ _ E). rewrite bind_ret. reflexivity.
Qed.

(** * Operators *)

Definition op_of (o : bop) : mathop :=
  match o with
  | Plus => M_ADD | Minus => M_SUB | Times => M_MUL | Divide => M_DIV | Modulo => M_MOD | Xor => M_XOR
  | BitAnd => M_LAND | BitOr => M_LOR | ShiftL => M_LSHIFT | ShiftR => M_RSHIFT | And => M_AND | Or => M_OR
  | LessEq => M_LTE | GreaterEq => M_GTE | Less => M_LT | Greater => M_GT | Equal1 | Equal2 => M_EQUALS
  | NotEqual => M_NOTEQUALS
  end.

(** What the loop does with an operand. *)
Definition combine {A} (C : cfg) (op : mathop) (total n : Z) (k : Z -> M (option A)) : M (option A) :=
  if is_divmod op && (n =? 0) then set_error SPASM_ERR_DIVIDE_BY_ZERO ;;; ret None
  else if is_divmod op && (total =? INT_MIN) && (n =? -1)
  then set_error SPASM_ERR_DIVIDE_IMIN1 ;;; ret None
  else total <- apply_op C op total n ;; k total.

Lemma int_res_fit C z s : int_res C z s =
  match fit (c_wrap C) z with Val v => Ok v s | _ => Undef UB_overflow end.
Proof.
  unfold int_res, fit, in_int, INT_MIN, INT_MAX.
  replace (z <=? 2147483647) with (z <? 2147483648) by lia.
  destruct ((-2147483648 <=? z) && (z <? 2147483648)); [reflexivity|].
  destruct (c_wrap C); [|reflexivity]. rewrite signed32_wrap. reflexivity.
Qed.
Lemma fit_not_err w z c : fit w z <> Err c.
Proof. unfold fit. destruct (_ && _); [discriminate|]. now destruct w. Qed.

Lemma combine_ok {A} C o a b (k : Z -> M (option A)) s :
  combine C (op_of o) a b k s =
  match compute (c_wrap C) o a b with
  | Val v => k v s
  | Err c => Ok None (noted false c s)
  | Undefined => Undef UB_overflow
  end.
Proof.
  unfold combine. destruct o; cbn [op_of is_divmod andb compute apply_op];
    try (rewrite bind_ret; reflexivity);
    try (unfold bind; rewrite int_res_fit; destruct (fit _ _) as [v|c|] eqn:E; [reflexivity|now apply fit_not_err in E|reflexivity]).
  - unfold divide, div_undefined, INT_MIN. destruct (b =? 0); [reflexivity|].
    destruct ((a =? -2147483648) && (b =? -1)); reflexivity.
  - unfold divide, div_undefined, INT_MIN. destruct (b =? 0); [reflexivity|].
    destruct ((a =? -2147483648) && (b =? -1)); reflexivity.
  - unfold shift_ok. destruct ((0 <=? b) && (b <? 32)) eqn:E; [|reflexivity].
    rewrite bind_ret. rewrite signed32_wrap, Z.shiftl_mul_pow2 by lia. reflexivity.
  - unfold shift_ok. destruct ((0 <=? b) && (b <? 32)) eqn:E; [|reflexivity].
    rewrite bind_ret, Z.shiftr_div_pow2 by lia. reflexivity.
Qed.

Definition term_start (c : Z) : bool :=
  (c =? 43) || (c =? 45) || (c =? 126) || (c =? 40) || (c =? 36) || (c =? 37) || (c =? 39) || isalnum c || (c =? 95).
Definition atom_start (c : Z) : bool :=
  (c =? 36) || (c =? 37) || (c =? 39) || isalnum c || (c =? 95).

Lemma digit_alnum base c : digit_of base c -> isalnum c = true.
Proof. intros H. now apply digit_of_val in H. Qed.
Lemma atom_start_ok a : atom_ok a -> exists c t, atom_text a = c :: t /\ atom_start c = true /\
  (c = 95 -> exists n, a = Name n).
Proof.
  intros H. destruct a as [l| |n|c|c]; cbn [atom_text] in *.
  - destruct H as (H1 & H2 & H3).
    assert (K : forall ds base tl, ds <> [] -> Forall (digit_of base) ds -> exists c t, ds ++ tl = c :: t /\
      atom_start c = true /\ (c = 95 -> exists n, Num l = Name n)).
    { intros ds base tl Hn Hd. destruct ds as [|c ds]; [contradiction|]. exists c. eexists. split; [reflexivity|].
      inversion Hd as [|? ? Hc _]; subst. apply digit_alnum in Hc. split.
      - unfold atom_start. rewrite Hc. now rewrite orb_true_r.
      - intros ->. discriminate. }
    destruct l as [ds|ds h|ds|ds b|ds|ds x]; cbn [literal_text literal_digits literal_base] in *.
    + exists 36. eexists. split; [reflexivity|split; [reflexivity|discriminate]].
    + exact (K ds 16 [h] H1 H2).
    + exists 37. eexists. split; [reflexivity|split; [reflexivity|discriminate]].
    + exact (K ds 2 [b] H1 H2).
    + destruct (K ds 10 [] H1 H2) as (c & t & E & Hc). exists c, t. split; [|exact Hc].
      now rewrite app_nil_r in E.
    + exact (K ds 10 [x] H1 H2).
  - exists 36, []. split; [reflexivity|split; [reflexivity|discriminate]].
  - destruct H as (_ & (c & t & -> & Hc) & _). exists c, t. split; [reflexivity|]. split; [|eauto].
    unfold atom_start, isalnum, isalpha, isupper, islower. unfold name_start in Hc. lia.
  - exists 39. eexists. split; [reflexivity|split; [reflexivity|discriminate]].
  - exists 39. eexists. split; [reflexivity|split; [reflexivity|discriminate]].
Qed.
Lemma atom_term_start c : atom_start c = true -> term_start c = true.
Proof. unfold atom_start, term_start. rewrite !orb_true_iff. tauto. Qed.
Lemma atom_start_facts c : atom_start c = true -> ~ blank c /\ c <> 40 /\ c <> 43 /\ c <> 45 /\ c <> 126.
Proof.
  unfold atom_start, isalnum, isalpha, isupper, islower, isdigit, blank. lia.
Qed.
Lemma term_start_facts c : term_start c = true -> ~ blank c /\ ~ line_ender c /\
  c <> 60 /\ c <> 62 /\ c <> 38 /\ c <> 124 /\ c <> 61.
Proof.
  unfold term_start, isalnum, isalpha, isupper, islower, isdigit, blank, line_ender. lia.
Qed.
Lemma term_start_ok t tx : writes_term t tx -> exists c q, tx = c :: q /\ term_start c = true.
Proof.
  intros H. inversion H as [g w a Ha Hw Hg|g w w1 e te w2 Hw Hg Hw1 He Hw2]; subst; destruct g; simpl; try (eexists; eexists; split; reflexivity).
  - rewrite (Hg eq_refl). destruct (atom_start_ok a Ha) as (c & q & -> & Hc & _). exists c, q. split; [reflexivity|].
    now apply atom_term_start.
  - rewrite (Hg eq_refl). eexists; eexists; split; reflexivity.
Qed.

Lemma skip_blanks w p c q : blanks w -> p = c :: q -> ~ blank c -> skip_ws (w ++ p) = p.
Proof. intros Hw -> Hc. rewrite skip_ws_app by assumption. now apply skip_ws_nonblank. Qed.

(** Reading the operator between two terms. *)
Lemma get_op_next f depth p o w2 c q s : skip_ws p = spelling o ++ w2 ++ c :: q -> blanks w2 -> term_start c = true ->
  get_op (S f) depth p s = Ok (OpNext (op_of o) (c :: q)) s.
Proof.
  intros Hp Hw Hc. destruct (term_start_facts c Hc) as (Hb & _ & N1 & N2 & N3 & N4 & N5).
  cbn [get_op]. rewrite Hp.
  assert (E1 : is_eol (spelling o ++ w2 ++ c :: q) = false) by (destruct o; reflexivity).
  rewrite E1.
  assert (E2 : match_op math_defs (spelling o ++ w2 ++ c :: q) = Some (op_of o, w2 ++ c :: q)).
  { assert (Hx : exists x y, w2 ++ c :: q = x :: y /\ x <> 60 /\ x <> 62 /\ x <> 38 /\ x <> 124 /\ x <> 61).
    { destruct Hw as [|x w Hx Hw]; [exists c, q; auto 10|]. exists x. eexists. split; [reflexivity|].
      unfold blank in Hx. lia. }
    destruct Hx as (x & y & -> & M1 & M2 & M3 & M4 & M5).
    assert (K1 : 60 =? x = false) by lia. assert (K2 : 62 =? x = false) by lia.
    assert (K3 : 38 =? x = false) by lia. assert (K4 : 124 =? x = false) by lia.
    assert (K5 : 61 =? x = false) by lia. cbn in K1, K2, K3, K4, K5.
    destruct o; cbn; rewrite ?K1, ?K2, ?K3, ?K4, ?K5; reflexivity. }
  rewrite E2. rewrite (skip_blanks w2 (c :: q) c q Hw eq_refl Hb). reflexivity.
Qed.
Lemma get_op_end f p s : is_eol (skip_ws p) = true -> get_op (S f) 0 p s = Ok (OpEnd (skip_ws p)) s.
Proof. intros H. cbn [get_op]. rewrite H. reflexivity. Qed.
Lemma get_op_close f depth p q s : 0 < depth -> skip_ws p = 41 :: q -> get_op (S f) depth p s = Ok (OpClose (skip_ws q)) s.
Proof.
  intros Hd Hp. cbn [get_op]. rewrite Hp. cbn. replace (0 <? depth) with true by lia. reflexivity.
Qed.

(** * Terms *)

(** The operand part of the loop: sign, then a parenthesis or a single value. *)
Definition operand (C : cfg) (R : fns) (depth : Z) (p : text) : M (option (text * Z)) :=
  let '(inv, neg, p) := unary p in
  r <- (if hd0 p =? 40 then
          r <- f_full R (tl p) (depth + 1) ;;
          ret (match r with Some (q, v) => Some (q, Some v) | None => None end)
        else parse_single C R p) ;;
  match r with
  | None => ret None
  | Some (p, None) => undef UB_uninit
  | Some (p, Some n) =>
    let n := if inv then Z.lnot n else n in
    n <- (if neg then int_res C (- n) else ret n) ;;
    ret (Some (p, n))
  end.
Definition after (C : cfg) (R : fns) (f : nat) (depth total n : Z) (p : text) : M (option (text * Z)) :=
  o <- get_op (S (length p)) depth p ;;
  match o with
  | OpEnd q => dec_depth ;;; ret (Some (q, total))
  | OpClose q => dec_depth ;;; ret (Some (q, total))
  | OpBad => ret None
  | OpNext o q => num_loop C R f depth total o (Some n) q
  end.
Lemma num_loop_operand C R f depth total op ln p s :
  match operand C R depth p s with
  | Ok (Some (q, n)) s' =>
      num_loop C R (S f) depth total op ln p s = combine C op total n (fun v => after C R f depth v n q) s'
  | Ok None s' => num_loop C R (S f) depth total op ln p s = Ok None s'
  | Undef UB_overflow => num_loop C R (S f) depth total op ln p s = Undef UB_overflow
  | _ => True
  end.
Proof.
  unfold operand. cbn [num_loop]. destruct (unary p) as [[inv neg] p'].
  set (m := if hd0 p' =? 40 then _ else _).
  unfold bind. destruct (m s) as [[[q [n|]]|] s1|c s1|w|]; try (exact I); try reflexivity.
  - destruct ((if neg then int_res C (- (if inv then Z.lnot n else n)) else ret (if inv then Z.lnot n else n)) s1)
      as [n' s2|c s2|w|]; try exact I; [reflexivity|]. destruct w; try exact I. reflexivity.
  - destruct w; try exact I. reflexivity.
Qed.

Lemma unary_leaf g w c q : blanks w -> (g = NoSign -> w = []) -> c <> 43 -> c <> 45 -> c <> 126 ->  ~ blank c ->
  (c = 95 -> (length (skip_to_name_end (c :: q)) < length q)%nat) ->
  unary (sign_text g ++ w ++ c :: q) = (match g with Inv => true | _ => false end,
    match g with Neg => true | _ => false end, c :: q).
Proof.
  intros Hw Hg N1 N2 N3 Hb Hu.
  assert (Hs : skip_ws (w ++ c :: q) = c :: q) by now apply (skip_blanks w (c :: q) c q).
  assert (H1 : exists x y, w ++ c :: q = x :: y /\ x <> 43 /\ x <> 45 /\
    (x = 95 -> (length (skip_to_name_end (x :: y)) < length y)%nat)).
  { destruct Hw as [|x w' Hx Hw']; [exists c, q; auto|]. exists x. eexists. split; [reflexivity|].
    unfold blank in Hx. repeat split; lia. }
  destruct H1 as (x & y & Ex & M1 & M2 & Mu).
  destruct g; cbn [sign_text].
  - rewrite (Hg eq_refl). simpl. unfold unary. cbn [hd0].
    replace (c =? 126) with false by lia. replace (c =? 45) with false by lia. replace (c =? 43) with false by lia.
    reflexivity.
  - unfold unary. cbn. rewrite Ex in *. cbn [hd0 hd1 tl]. replace (x =? 43) with false by lia. cbn [negb andb].
    replace (negb (x =? 95) || negb (length (skip_to_name_end (x :: y)) =? length y)%nat) with true.
    + cbv iota. rewrite Hs. reflexivity.
    + destruct (x =? 95) eqn:E; [|reflexivity]. simpl negb at 1. symmetry. cbn [orb].
      apply negb_true_iff, Nat.eqb_neq. specialize (Mu ltac:(lia)). lia.
  - unfold unary. cbn. rewrite Ex in *. cbn [hd0 hd1 tl]. replace (x =? 45) with false by lia. cbn [negb andb].
    replace (negb (x =? 95) || negb (length (skip_to_name_end (x :: y)) =? length y)%nat) with true.
    + cbv iota. rewrite Hs. reflexivity.
    + destruct (x =? 95) eqn:E; [|reflexivity]. simpl negb at 1. symmetry. cbn [orb].
      apply negb_true_iff, Nat.eqb_neq. specialize (Mu ltac:(lia)). lia.
  - unfold unary. cbn. rewrite Hs. reflexivity.
Qed.

(** * Expressions *)

Fixpoint terms (e : expr) : nat := match e with Single _ => 1 | Bin e _ _ => S (terms e) end.
Lemma terms_length e te : writes e te -> (terms e <= length te)%nat.
Proof.
  revert te. induction e as [t|e IH o t]; intros te H; inversion H; subst.
  - destruct (term_start_ok _ _ H1) as (c & q & -> & _). simpl. lia.
  - specialize (IH _ H3). destruct (term_start_ok _ _ H7) as (c & q & -> & _).
    cbn [terms]. rewrite !app_length. cbn [length]. lia.
Qed.

Lemma writes_start e te : writes e te -> exists c q, te = c :: q /\ ~ blank c.
Proof.
  revert te. induction e as [t|e IH o t]; intros te H; inversion H; subst.
  - destruct (term_start_ok _ _ H1) as (c & q & -> & Hc). exists c, q. split; [reflexivity|].
    now apply term_start_facts in Hc.
  - destruct (IH _ H3) as (c & q & -> & Hc). exists c. eexists. split; [reflexivity|assumption].
Qed.

(** How many nested evaluations an expression needs; [need] is for names. *)
Fixpoint wt_term (need : list Z -> nat) (t : term) : nat :=
  match t with Leaf _ (Name n) => need n | Leaf _ _ => 0 | Par _ e => S (wt need e) end
with wt (need : list Z -> nat) (e : expr) : nat :=
  match e with Single t => wt_term need t | Bin e _ t => Nat.max (wt need e) (wt_term need t) end.

Section Expr.
Variable C : cfg.
Variable s0 : st.
Variable names : list Z -> option Z.
Variable need : list Z -> nat.
Variable used : list Z -> Prop.
Hypothesis Hnames : forall k n d, used n -> name_ok n -> (need n <= k)%nat -> d + Z.of_nat (need n) <= 20 ->
  name_reads C (knot C k) s0 names d n.

Let tvalue := term_value (c_wrap C) (s_pc s0) names.
Let evalue := value (c_wrap C) (s_pc s0) names.

Lemma follows_blank nm w r : blanks w -> (w = [] -> follows nm r) -> follows nm (w ++ r).
Proof.
  intros Hw Hr. destruct Hw as [|x w Hx Hw]; [now apply Hr|].
  unfold follows, is_name_char, isalnum, isalpha, isupper, islower, isdigit, memb. simpl. unfold blank in Hx.
  destruct nm; lia.
Qed.
Lemma follows_close nm r : follows nm (41 :: r).
Proof. destruct nm; [split; [reflexivity|discriminate]|reflexivity]. Qed.
Lemma follows_op nm o r : (o = NotEqual -> nm = false) -> follows nm (spelling o ++ r).
Proof.
  intros H. destruct nm.
  - destruct o; try (split; [reflexivity|discriminate]). now specialize (H eq_refl).
  - destruct o; reflexivity.
Qed.

Lemma sign_yields g (r : text) (v d : Z) :
  yields s0 (apply_sign (c_wrap C) g v) (fun v => Ok (Some (r, v)) (at_ s0 d))
    (bind (if match g with Neg => true | _ => false end
           then int_res C (- (if match g with Inv => true | _ => false end then Z.lnot v else v))
           else ret (if match g with Inv => true | _ => false end then Z.lnot v else v))
          (fun n => ret (Some (r, n))) (at_ s0 d)).
Proof.
  destruct g; cbn [apply_sign].
  - reflexivity.
  - reflexivity.
  - unfold bind. rewrite int_res_fit. destruct (fit (c_wrap C) (- v)) eqn:E; [reflexivity|now apply fit_not_err in E|reflexivity].
  - simpl. replace (Z.lnot v) with (-1 - v); [reflexivity|]. unfold Z.lnot. lia.
Qed.

(** Reading a term gives its value and the text after it, up to blanks. *)
Definition term_reads (t : term) : Prop := forall tx r k depth d, writes_term t tx ->
  (forall n, term_mentions n t -> used n) ->
  follows (term_name t) r -> (wt_term need t <= k)%nat -> d + Z.of_nat (wt_term need t) <= 20 -> 0 <= depth ->
  exists r', skip_ws r' = skip_ws r /\
  yields s0 (tvalue t) (fun v => Ok (Some (r', v)) (at_ s0 d)) (operand C (knot C k) depth (tx ++ r) (at_ s0 d)).
(** Reading an expression brings the loop after its last term, with its value. *)
Definition expr_reads (e : expr) : Prop := forall te r k depth d f ln, writes e te ->
  (forall n, mentions n e -> used n) ->
  follows (ends_name e) r -> (wt need e <= k)%nat -> d + Z.of_nat (wt need e) <= 20 -> 0 <= depth ->
  (terms e <= f)%nat ->
  exists r' n, skip_ws r' = skip_ws r /\
  yields s0 (evalue e) (fun v => after C (knot C k) (f - terms e) depth v n r' (at_ s0 d))
    (num_loop C (knot C k) f depth 0 M_NONE ln (te ++ r) (at_ s0 d)).

Lemma yields_loop k f depth total o ln p d a (g : Z -> res (option (text * Z))) r' : 
  yields s0 a (fun v => Ok (Some (r', v)) (at_ s0 d)) (operand C (knot C k) depth p (at_ s0 d)) ->
  (forall n, a = Val n -> g n = combine C o total n (fun v => after C (knot C k) f depth v n r') (at_ s0 d)) ->
  yields s0 a g (num_loop C (knot C k) (S f) depth total o ln p (at_ s0 d)).
Proof.
  intros Ha Hg. pose proof (num_loop_operand C (knot C k) f depth total o ln p (at_ s0 d)) as H.
  destruct a as [v|c|]; simpl in *.
  - rewrite Ha in H. rewrite H. symmetry. now apply Hg.
  - destruct Ha as (d' & Ha). rewrite Ha in H. eauto.
  - rewrite Ha in H. exact H.
Qed.

Lemma full_reads e te w1 w2 r k depth d out : expr_reads e -> blanks w1 -> writes e te -> blanks w2 ->
  (forall n, mentions n e -> used n) -> follows (ends_name e) (w2 ++ r) ->
  (wt need e <= k)%nat -> 1 + d + Z.of_nat (wt need e) <= 20 -> 0 <= depth ->
  (forall v q n f, skip_ws q = skip_ws r ->
     after C (knot C k) f depth v n q (at_ s0 (d + 1)) = Ok (Some (out, v)) (at_ s0 d)) ->
  yields s0 (evalue e) (fun v => Ok (Some (out, v)) (at_ s0 d))
    (parse_num_full C (knot C k) (w1 ++ te ++ w2 ++ r) depth (at_ s0 d)).
Proof.
  intros IH Hw1 He Hw2 Hu Hf Hk Hd H0 Hafter.
  destruct (writes_start e te He) as (c & q & Ec & Hc).
  unfold parse_num_full. rewrite bind_upd, bind_get, bind_upd.
  replace (s_depth (set_fwd false (at_ s0 d))) with d by reflexivity.
  replace (RECURSION_LIMIT <? d + 1) with false by (unfold RECURSION_LIMIT; lia).
  replace (set_depth (d + 1) (set_fwd false (at_ s0 d))) with (at_ s0 (d + 1)) by (symmetry; apply at_step).
  assert (Es : skip_ws (w1 ++ te ++ w2 ++ r) = te ++ w2 ++ r).
  { apply (skip_blanks w1 (te ++ w2 ++ r) c (q ++ w2 ++ r) Hw1); [now rewrite Ec|assumption]. }
  rewrite Es. cbv zeta.
  destruct (te ++ w2 ++ r) as [|x y] eqn:E; [rewrite Ec in E; discriminate|]. rewrite <- E. clear Es E x y.
  pose proof (terms_length e te He) as Ht.
  destruct (IH te (w2 ++ r) k depth (d + 1) (S (length (te ++ w2 ++ r))) None He Hu Hf Hk ltac:(lia) H0
    ltac:(rewrite app_length; lia)) as (r' & n & Er & Hy).
  rewrite (skip_ws_app w2 r Hw2) in Er.
  destruct (evalue e) as [v|code|]; simpl in *; [|exact Hy|exact Hy].
  rewrite Hy. now apply Hafter.
Qed.

Lemma full_close e te w1 w2 r k depth d : expr_reads e -> blanks w1 -> writes e te -> blanks w2 ->
  (forall n, mentions n e -> used n) -> (wt need e <= k)%nat -> 1 + d + Z.of_nat (wt need e) <= 20 -> 0 < depth ->
  yields s0 (evalue e) (fun v => Ok (Some (skip_ws r, v)) (at_ s0 d))
    (parse_num_full C (knot C k) (w1 ++ te ++ w2 ++ 41 :: r) depth (at_ s0 d)).
Proof.
  intros IH Hw1 He Hw2 Hu Hk Hd H0. apply full_reads; try assumption; try lia.
  - apply follows_blank; [assumption|]. intros _. apply follows_close.
  - intros v q n f Hq. unfold after. rewrite (skip_ws_nonblank 41 r) in Hq by (unfold blank; lia).
    rewrite (bind_ok _ _ _ _ _ (get_op_close _ depth q r _ H0 Hq)).
    unfold dec_depth. rewrite bind_assoc, bind_get, bind_upd, bind_ret || rewrite bind_assoc, bind_get, bind_upd.
    replace (set_depth _ _) with (at_ s0 d); [reflexivity|]. symmetry. apply at_back.
Qed.
Lemma full_end e te w1 w2 r k d : expr_reads e -> blanks w1 -> writes e te -> blanks w2 ->
  (forall n, mentions n e -> used n) -> (wt need e <= k)%nat -> 1 + d + Z.of_nat (wt need e) <= 20 -> is_eol r = true ->
  yields s0 (evalue e) (fun v => Ok (Some (r, v)) (at_ s0 d))
    (parse_num_full C (knot C k) (w1 ++ te ++ w2 ++ r) 0 (at_ s0 d)).
Proof.
  intros IH Hw1 He Hw2 Hu Hk Hd Hr.
  assert (Es : skip_ws r = r).
  { destruct r as [|c r]; [reflexivity|]. apply is_eol_cons in Hr. apply skip_ws_nonblank.
    unfold line_ender in Hr. unfold blank. lia. }
  apply full_reads; try assumption; try lia.
  - apply follows_blank; [assumption|]. intros _. destruct r as [|c r]; [destruct (ends_name e); [split; [reflexivity|discriminate]|reflexivity]|].
    apply is_eol_cons in Hr. unfold line_ender in Hr.
    assert (Hcc : c = 10 \/ c = 13 \/ c = 59 \/ c = 92) by lia.
    destruct (ends_name e); [split|]; destruct Hcc as [->|[->|[->| ->]]]; try reflexivity; discriminate.
  - intros v q n f Hq. unfold after. rewrite Es in Hq.
    rewrite (bind_ok _ _ _ (OpEnd r) (at_ s0 (d + 1))).
    + unfold dec_depth. rewrite bind_assoc, bind_get, bind_upd.
      replace (set_depth _ _) with (at_ s0 d); [reflexivity|]. symmetry. apply at_back.
    + rewrite <- Hq. apply get_op_end. now rewrite Hq.
Qed.

Theorem reads_all : (forall t, term_reads t) /\ (forall e, expr_reads e).
Proof.
  apply term_expr_ind.
  - (* a value *)
    intros g a tx r k depth d Hw Hu Hf Hk Hd Hd0. exists r. split; [reflexivity|].
    inversion Hw as [? w ? Ha Hb Hg|]; subst. destruct (atom_start_ok a Ha) as (c & q & Ea & Hc & H95).
    destruct (atom_start_facts c Hc) as (N0 & N1 & N2 & N3 & N4).
    unfold operand. rewrite <- !app_assoc. rewrite Ea. cbn [app].
    rewrite unary_leaf; try assumption.
    + cbn [hd0]. replace (c =? 40) with false by lia. change (c :: q ++ r) with ((c :: q) ++ r). rewrite <- Ea.
      assert (Hf' : follows (atom_name a) r) by (destruct a; exact Hf).
      assert (Hs : yields s0 (atom_value (s_pc s0) names a) (fun v => Ok (Some (r, Some v)) (at_ s0 d))
        (parse_single C (knot C k) (atom_text a ++ r) (at_ s0 d))).
      { apply atom_single; [assumption|assumption|]. intros n ->. simpl in Hk, Hd.
        apply Hnames; [apply Hu; reflexivity|exact Ha|assumption|assumption]. }
      unfold tvalue. cbn [term_value]. destruct (atom_value (s_pc s0) names a) as [v|code|]; simpl in Hs.
      * rewrite (bind_ok _ _ _ _ _ Hs). cbv beta iota zeta. apply sign_yields.
      * destruct Hs as (d' & Hs). rewrite (bind_ok _ _ _ _ _ Hs). simpl. exists d'. reflexivity.
      * rewrite (bind_undef _ _ _ _ Hs). reflexivity.
    + intros ->. destruct (H95 eq_refl) as (n & ->). simpl in Ea, Hf. destruct Hf as (Hf & _).
      destruct Ha as (Hun & _ & Hall). subst n. change (95 :: q ++ r) with ((95 :: q) ++ r).
      rewrite skip_name_app by assumption. rewrite app_length. destruct q; [elim Hun; reflexivity|]. simpl. lia.
  - (* a parenthesis *)
    intros g e IH tx r k depth d Hw Hu Hf Hk Hd Hd0. exists (skip_ws r). split; [apply skip_ws_idem|].
    inversion Hw as [|? w w1 ? te w2 Hb Hg Hw1 He Hw2]; subst.
    unfold operand.
    replace ((sign_text g ++ w ++ 40 :: w1 ++ te ++ w2 ++ [41]) ++ r)
      with (sign_text g ++ w ++ 40 :: (w1 ++ te ++ w2 ++ 41 :: r)).
    2:{ rewrite <- !app_assoc. simpl. rewrite <- !app_assoc. reflexivity. }
    rewrite unary_leaf; try assumption; try discriminate; [|unfold blank; lia].
    cbn [hd0 tl]. change (40 =? 40) with true. cbv iota.
    destruct k as [|k]; [simpl in Hk; lia|]. cbn [knot f_full].
    cbn [wt_term] in Hk, Hd.
    pose proof (full_close e te w1 w2 r k (depth + 1) d IH Hw1 He Hw2 Hu ltac:(lia) ltac:(lia) ltac:(lia)) as Hs.
    change (tvalue (Par g e)) with (andthen (evalue e) (apply_sign (c_wrap C) g)). destruct (evalue e) as [v|code|] eqn:Ev; simpl in Hs.
    + rewrite bind_assoc. rewrite (bind_ok _ _ _ _ _ Hs). rewrite bind_ret. cbv beta iota zeta. apply sign_yields.
    + destruct Hs as (d' & Hs). rewrite bind_assoc. rewrite (bind_ok _ _ _ _ _ Hs). simpl. exists d'. reflexivity.
    + rewrite bind_assoc. rewrite (bind_undef _ _ _ _ Hs). reflexivity.
  - (* one term *)
    intros t IH te r k depth d f ln Hw Hu Hf Hk Hd Hd0 Ht. inversion Hw as [? tt Htt|]; subst.
    destruct (IH te r k depth d Htt Hu Hf Hk Hd Hd0) as (r' & Er & Hy).
    destruct f as [|f]; [simpl in Ht; lia|].
    exists r'. 
    change (evalue (Single t)) with (tvalue t).
    destruct (tvalue t) as [v|code|] eqn:Et.
    + exists v. split; [assumption|]. eapply yields_loop; [exact Hy|]. intros n [= <-].
      cbn [terms]. rewrite Nat.sub_0_r || idtac. replace (S f - 1)%nat with f by lia. reflexivity.
    + exists 0. split; [assumption|]. eapply yields_loop; [exact Hy|]. discriminate.
    + exists 0. split; [assumption|]. eapply yields_loop; [exact Hy|]. discriminate.
  - (* one more operator *)
    intros e IHe o t IHt te r k depth d f ln Hw Hu Hf Hk Hd Hd0 Ht.
    inversion Hw as [|? te0 w1 ? w2 ? tt He Hw1 Hw2 Htt Hne]; subst. cbn [wt] in Hk, Hd. cbn [terms] in Ht.
    destruct (term_start_ok _ _ Htt) as (c & q & Ec & Hc).
    destruct (IHt tt r k depth d Htt ltac:(intros; apply Hu; simpl; auto) Hf ltac:(lia) ltac:(lia) Hd0) as (r' & Er & Hy).
    destruct (IHe te0 (w1 ++ spelling o ++ w2 ++ tt ++ r) k depth d f ln He) as (r1 & n1 & Er1 & Hy1); try lia.
    { intros; apply Hu; simpl; auto. }
    { apply follows_blank; [assumption|]. intros E1. apply follows_op. intros Eo.
      destruct (ends_name e); [|reflexivity]. now elim (Hne Eo eq_refl). }
    rewrite <- !app_assoc.
    assert (Eskip : skip_ws (w1 ++ spelling o ++ w2 ++ tt ++ r) = spelling o ++ w2 ++ c :: q ++ r).
    { rewrite skip_ws_app by assumption. rewrite Ec. cbn [app].
      assert (K : forall x, skip_ws (spelling o ++ x) = spelling o ++ x) by (intros x; destruct o; reflexivity).
      apply K. }
    change (evalue (Bin e o t)) with (andthen (evalue e) (fun a => andthen (tvalue t) (compute (c_wrap C) o a))).
    destruct (evalue e) as [a|code|] eqn:Ee; simpl in Hy1.
    + rewrite Hy1. cbn [andthen].
      assert (Eop : forall s, after C (knot C k) (f - terms e) depth a n1 r1 s =
        num_loop C (knot C k) (f - terms e) depth a (op_of o) (Some n1) (tt ++ r) s).
      { intros s. unfold after.
        rewrite (bind_ok _ _ _ _ _ (get_op_next _ depth r1 o w2 c (q ++ r) s ltac:(now rewrite Er1) Hw2 Hc)).
        rewrite Ec. reflexivity. }
      rewrite Eop. replace (f - terms e)%nat with (S (f - terms (Bin e o t))) by (cbn [terms]; lia).
      destruct (tvalue t) as [b|code|] eqn:Et; cbn [andthen].
      * exists r', b. split; [assumption|].
        pose proof (num_loop_operand C (knot C k) (f - terms (Bin e o t)) depth a (op_of o) (Some n1) (tt ++ r) (at_ s0 d)) as Hn.
        simpl in Hy. rewrite Hy in Hn. rewrite Hn. rewrite combine_ok.
        destruct (compute (c_wrap C) o a b) as [v|code|] eqn:Eo; simpl; [reflexivity| |reflexivity].
        exists d. assert (E262 : code =? 262 = false).
        { destruct o; simpl in Eo; try discriminate; try (now apply fit_not_err in Eo);
            try (destruct ((0 <=? b) && (b <? 32)); discriminate);
            unfold divide in Eo; destruct (b =? 0); try (now injection Eo as <-);
            destruct ((a =? -2147483648) && (b =? -1)); now try injection Eo as <-. }
        rewrite E262. reflexivity.
      * exists r', 0. split; [assumption|]. eapply yields_loop; [exact Hy|discriminate].
      * exists r', 0. split; [assumption|]. eapply yields_loop; [exact Hy|discriminate].
    + exists r', 0. split; [assumption|]. cbn [andthen]. exact Hy1.
    + exists r', 0. split; [assumption|]. cbn [andthen]. exact Hy1.
Qed.
End Expr.

(** * Bad digits *)

Lemma split_bad base run : base <= 16 -> ~ Forall (digit_of base) run ->
  exists g b t, run = g ++ b :: t /\ Forall (digit_of base) g /\ ~ digit_of base b.
Proof.
  intros Hb. induction run as [|c run IH]; intros H; [elim H; constructor|].
  destruct (digit_val c <? base) eqn:E.
  - assert (Hc : digit_of base c) by (apply digit_val_digit; lia).
    destruct IH as (g & b & t & -> & Hg & Hx); [intros K; apply H; now constructor|].
    exists (c :: g), b, t. repeat split; auto.
  - exists [], c, run. repeat split; auto. intros K. apply digit_of_val in K. destruct K. congruence.
Qed.
Lemma conv_bad base code run r s : 2 <= base <= 16 -> Forall (fun c => isalnum c = true) run ->
  hd0 r <> 120 -> hd0 r <> 88 -> ~ Forall (digit_of base) run -> (base = 16 -> ~ zero_x run) ->
  conv_generic base code (run ++ r) r s = Ok None (noted false code s).
Proof.
  intros Hb Ha Hr1 Hr2 Hbad Hx. unfold conv_generic.
  assert (E : exists v ep, strtoll base (run ++ r) = (v, ep) /\ (length r < length ep)%nat).
  { destruct (split_bad base run ltac:(lia) Hbad) as (g & b & t & -> & Hg & Hnb).
    assert (Hne : exists c q, (g ++ b :: t) = c :: q).
    { destruct g; eexists; eexists; reflexivity. }
    destruct Hne as (c & q & Ec).
    assert (Hc : isalnum c = true) by (rewrite Ec in Ha; now inversion Ha).
    destruct (alnum_not_space c Hc) as (S1 & S2 & S3).
    assert (Hx' : (base =? 16) && (hd0 ((g ++ b :: t) ++ r) =? 48) && (tolower (hd1 ((g ++ b :: t) ++ r)) =? 120) &&
      isxdigit (hd0 (tl (tl ((g ++ b :: t) ++ r)))) = false).
    { destruct (base =? 16) eqn:E16; [|reflexivity]. specialize (Hx ltac:(lia)). cbn [andb].
      rewrite Ec in *. cbn [app hd0] in *.
      destruct (c =? 48) eqn:E48; [|reflexivity]. cbn [andb] in *.
      assert (E : tolower (hd1 (c :: q ++ r)) =? 120 = false).
      { destruct q as [|c2 q].
        - destruct r as [|x r]; [reflexivity|]. cbn [app hd1 hd0] in *. unfold tolower, isupper.
          destruct ((65 <=? x) && (x <=? 90)) eqn:U; lia.
        - cbn [app hd1] in *. apply Z.eqb_neq. intros E. apply Hx. exists c2, q. split; [f_equal; lia|].
          unfold tolower, isupper in E. destruct ((65 <=? c2) && (c2 <=? 90)) eqn:U; lia. }
      rewrite E. reflexivity. }
    unfold strtoll. rewrite Ec in *. cbn [app drop_space] in *. rewrite S1. cbn [hd0] in *.
    apply Z.eqb_neq in S2, S3. rewrite S2, S3. cbv beta iota zeta delta [orb].
    cbn [hd0]. rewrite Hx'. change (c :: q ++ r) with ((c :: q) ++ r). rewrite <- Ec.
    rewrite <- app_assoc. cbn [app].
    rewrite (take_digits_ok base (b :: t ++ r)); [|lia|right; eauto|assumption].
    destruct g as [|c' g].
    - cbn [length Nat.eqb negb orb]. eexists; eexists; split; [reflexivity|]. simpl. rewrite app_length. lia.
    - cbn [length Nat.eqb negb orb]. eexists; eexists; split; [reflexivity|]. simpl. rewrite app_length. lia. }
  destruct E as (v & ep & -> & El). apply Nat.ltb_lt in El. rewrite El. reflexivity.
Qed.

Lemma letter_alnum c : letter_or_digit c <-> isalnum c = true.
Proof.
  unfold letter_or_digit, isalnum, isalpha, isdigit, isupper, islower. lia.
Qed.
Lemma letters_alnum run : Forall letter_or_digit run -> Forall (fun c => isalnum c = true) run.
Proof. apply Forall_impl. intros c. apply letter_alnum. Qed.
Lemma digit10 c : digit_of 10 c -> isdigit c = true.
Proof.
  intros (d & E & L). unfold digit_value in E. unfold isdigit.
  destruct ((48 <=? c) && (c <=? 57)) eqn:D; [reflexivity|].
  destruct ((65 <=? c) && (c <=? 70)) eqn:D2; [injection E as <-; lia|].
  destruct ((97 <=? c) && (c <=? 102)) eqn:D3; [injection E as <-; lia|discriminate].
Qed.
Lemma digit16 c : digit_of 16 c -> isxdigit c = true.
Proof.
  intros (d & E & L). unfold digit_value in E. unfold isxdigit, isdigit.
  destruct ((48 <=? c) && (c <=? 57)) eqn:D; [reflexivity|].
  destruct ((65 <=? c) && (c <=? 70)) eqn:D2; [lia|].
  destruct ((97 <=? c) && (c <=? 102)) eqn:D3; [lia|discriminate].
Qed.
Lemma misspelt_single C R t code r s : misspelt t code -> apart r ->
  parse_single C R (t ++ r) s = Ok None (noted false code s).
Proof.
  intros H Hr.
  assert (X : hd0 r <> 120 /\ hd0 r <> 88).
  { split; intros E; unfold apart in Hr; rewrite E in Hr; discriminate. }
  destruct X as (X1 & X2).
  assert (K : forall base conv code run q, 2 <= base <= 16 -> conv = conv_generic base code ->
    Forall letter_or_digit run -> hd0 q <> 120 -> hd0 q <> 88 -> ~ Forall (digit_of base) run ->
    (base = 16 -> ~ zero_x run) -> conv (run ++ q) q s = Ok None (noted false code s)).
  { intros base conv code' run q Hb -> Hl H1 H2 Hbad Hz. apply conv_bad; auto. now apply letters_alnum. }
  assert (D : forall run x k, Forall letter_or_digit run -> letter_or_digit x -> digit_of 10 (hd 0 (run ++ [x])) ->
    (if toupper x =? 72 then conv_hex ((run ++ [x]) ++ r) (x :: r)
     else if toupper x =? 66 then conv_bin ((run ++ [x]) ++ r) (x :: r)
     else if toupper x =? 68 then conv_dec ((run ++ [x]) ++ r) (x :: r)
     else conv_dec ((run ++ [x]) ++ r) r) s = Ok None (noted false k s) ->
    parse_single C R ((run ++ [x]) ++ r) s = Ok None (noted false k s)).
  { intros run x k Hl Hx H10 Hc.
    assert (Ed : exists c q, (run ++ [x]) ++ r = c :: q /\ isdigit c = true).
    { destruct run as [|c run]; simpl in H10; [exists x, r|exists c, ((run ++ [x]) ++ r)]; split; try reflexivity; now apply digit10. }
    destruct Ed as (c & q & E & Hc10). rewrite E. rewrite (parse_single_digit C R c q Hc10), <- E.
    replace (last_alnum ((run ++ [x]) ++ r)) with (x :: r)
      by (rewrite <- app_assoc; cbn [app]; symmetry; apply last_alnum_app; [now apply letters_alnum|now apply letter_alnum|assumption]).
    cbn [hd0 tl]. cbv zeta. rewrite (bind_ok _ _ s None (noted false k s)); [reflexivity|exact Hc]. }
  inversion H; subst; clear H.
  - unfold parse_single. cbn [app hd0 tl]. change (36 =? 43) with false. change (36 =? 45) with false. change (36 =? 36) with true.
    cbv beta iota zeta.
    assert (E : isxdigit (hd0 (run ++ r)) = true).
    { destruct run; [elim H2; constructor|]. now apply digit16. }
    rewrite E. rewrite skip_alnum_app by (auto using letters_alnum).
    rewrite (bind_ok _ _ s None (noted false 513 s)); [reflexivity|].
    apply (K 16 conv_hex 513 run); auto; lia.
  - unfold parse_single. cbn [app hd0 tl]. change (37 =? 43) with false. change (37 =? 45) with false.
    change (37 =? 36) with false. change (37 =? 37) with true. cbv beta iota zeta.
    rewrite skip_alnum_app by (auto using letters_alnum).
    rewrite (bind_ok _ _ s None (noted false 514 s)); [reflexivity|].
    apply (K 2 conv_bin 514 run); auto; lia.
  - assert (hd 0 (run ++ [h]) = hd 0 run) by (destruct run; [elim H3; constructor|reflexivity]).
    apply D; auto; [unfold letter_or_digit; lia|congruence|].
    replace (toupper h =? 72) with true by (destruct H0; subst h; reflexivity).
    rewrite <- app_assoc. apply (K 16 conv_hex 513 run); auto; simpl; lia.
  - assert (hd 0 (run ++ [b]) = hd 0 run) by (destruct run; [elim H3; constructor|reflexivity]).
    apply D; auto; [unfold letter_or_digit; lia|congruence|].
    replace (toupper b =? 72) with false by (destruct H0; subst b; reflexivity).
    replace (toupper b =? 66) with true by (destruct H0; subst b; reflexivity).
    rewrite <- app_assoc. apply (K 2 conv_bin 514 run); auto; simpl; lia.
  - assert (hd 0 (run ++ [d]) = hd 0 run) by (destruct run; [elim H3; constructor|reflexivity]).
    apply D; auto; [unfold letter_or_digit; lia|congruence|].
    replace (toupper d =? 72) with false by (destruct H0; subst d; reflexivity).
    replace (toupper d =? 66) with false by (destruct H0; subst d; reflexivity).
    replace (toupper d =? 68) with true by (destruct H0; subst d; reflexivity).
    rewrite <- app_assoc. apply (K 10 conv_dec 512 run); auto; simpl; lia.
  - apply D; auto.
    assert (Hu : (toupper x =? 72) = false /\ (toupper x =? 66) = false /\ (toupper x =? 68) = false).
    { cbn [In] in H1. unfold toupper, islower. destruct ((97 <=? x) && (x <=? 122)) eqn:U; lia. }
    destruct Hu as (-> & -> & ->). apply (K 10 conv_dec 512 (run ++ [x])); auto; try lia.
    apply Forall_app. split; [assumption|]. now constructor.
Qed.
