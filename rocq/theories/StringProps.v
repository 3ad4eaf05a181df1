(** Escaping and reducing strings: C06. *)
From Verif Require Import Base BaseProofs State MonadProofs UtilsModel ErrorsModel StorageModel ParserModel Knot MainModel
  UtilsSpec UtilsProofs PassTwoSpec StorageProofs ParserSpec ParserProofs ParserProps Validate Programs.

(** Evaluating a quoted escape. *)
Lemma parse_escape C n c s : c <> 35 ->
  parse_num (knot C (S n)) [39; 92; c; 39] s = Ok (Some (escape_value c)) (set_depth 0 (set_fwd false s)).
Proof.
  intros Hc.
  assert (W : writes (Single (Leaf NoSign (Esc c))) [39; 92; c; 39]).
  { constructor. apply (W_leaf NoSign [] (Esc c)); [exact Hc|constructor|reflexivity]. }
  pose proof (c01_left_to_right C (S n) s (fun _ => None) _ _ [] [] [] W (Forall_nil _) (Forall_nil _) (or_introl eq_refl)) as K.
  cbv zeta in K. cbn [nest nest_term app] in K. apply K; [lia|lia|]. intros m H. destruct H.
Qed.

(** The state in which the evaluator leaves its two bookkeeping fields after an escape. *)
Definition settled (used : bool) (s : st) : st := if used then set_depth 0 (set_fwd false s) else s.
Lemma settled_settled a b s : settled a (settled b s) = settled (a || b) s.
Proof. destruct a, b; reflexivity. Qed.
Definition escapes (t : list Z) : bool := existsb (fun c => (c =? 34) || (c =? 92)) t.

Lemma until_nul_id t : Forall (fun c => c <> 0) t -> until_nul t = t.
Proof. induction 1 as [|c t H Ht IH]; [reflexivity|]. simpl. replace (c =? 0) with false by lia. now rewrite IH. Qed.
Lemma reduce_escaped C n t : forall s q rest v q', reduce_body (knot C (S n)) rest q (settled (escapes t) s) = Ok (v, q') (settled (escapes t) s) ->
  reduce_body (knot C (S n)) (escape_body t ++ rest) q s = Ok (t ++ v, q') (settled (escapes t) s).
Proof.
  induction t as [|c t IH]; intros s q rest v q' H; [exact H|]. cbn [escapes existsb] in H. fold (escapes t) in H.
  cbn [escape_body escapes existsb]. fold (escapes t). destruct (Z.eqb_spec c 34) as [->|N1]; [|destruct (Z.eqb_spec c 92) as [->|N2]].
  - cbn [app orb reduce_body Z.eqb Pos.eqb] in *. rewrite (bind_ok _ _ _ _ _ (parse_escape C n 34 s ltac:(lia))).
    rewrite (bind_ok _ _ _ (t ++ v, q') (settled true s)); [reflexivity|].
    assert (E : settled (escapes t) (settled true s) = settled true s) by (rewrite settled_settled; now destruct (escapes t)).
    pose proof (IH (settled true s) q rest v q') as K. rewrite E in K. exact (K H).
  - cbn [app orb reduce_body Z.eqb Pos.eqb] in *. rewrite (bind_ok _ _ _ _ _ (parse_escape C n 92 s ltac:(lia))).
    rewrite (bind_ok _ _ _ (t ++ v, q') (settled true s)); [reflexivity|].
    assert (E : settled (escapes t) (settled true s) = settled true s) by (rewrite settled_settled; now destruct (escapes t)).
    pose proof (IH (settled true s) q rest v q') as K. rewrite E in K. exact (K H).
  - cbn [orb] in H. cbn [app orb reduce_body]. replace (c =? 92) with false by lia. replace (c =? 34) with false by lia.
    rewrite (bind_ok _ _ _ (t ++ v, q') (settled (escapes t) s)); [reflexivity|]. now apply IH.
Qed.

(** Escaping a string and reducing it gives it back, and changes nothing else. *)
Theorem c06_round_trip C n t s : Forall (fun c => c <> 0) t ->
  exists used, reduce_string (knot C (S n)) (escape_string t) s = Ok t (settled used s).
Proof.
  intros Ht. exists (escapes t). unfold reduce_string, escape_string.
  assert (B : reduce_body (knot C (S n)) (34 :: escape_body t ++ [34]) 0 s = Ok (34 :: t ++ [34], 2) (settled (escapes t) s)).
  { cbn [reduce_body Z.eqb Pos.eqb]. rewrite (bind_ok _ _ _ (t ++ [34], 2) (settled (escapes t) s)); [reflexivity|].
    now apply reduce_escaped. }
  rewrite (bind_ok _ _ _ _ _ B). unfold ret. f_equal.
  rewrite until_nul_id.
  - change (34 :: t ++ [34]) with ((34 :: t) ++ [34]). rewrite last_last. cbn [Z.leb Z.compare hd0 app Z.eqb Pos.eqb andb tl].
    apply removelast_last.
  - constructor; [lia|]. apply Forall_app. split; [exact Ht|]. constructor; [lia|constructor].
Qed.
Print Assumptions c06_round_trip.

(** Reducing never makes a string longer. *)
Theorem c06_no_longer R t s u s' : reduce_string R t s = Ok u s' -> (length u <= length t)%nat.
Proof.
  assert (B : forall k t q s v q' s', (length t <= k)%nat -> reduce_body R t q s = Ok (v, q') s' -> (length v <= length t)%nat).
  { induction k as [|k IH]; intros [|c t0] q s0 v q' s1 L; try (intros [= <- _ _]; reflexivity); simpl in L; [lia|].
    cbn [reduce_body]. destruct (c =? 92).
    - destruct t0 as [|x t0]; [discriminate|]. intros H. apply bind_inv_ok in H. destruct H as (a & s2 & _ & H).
      apply bind_inv_ok in H. destruct H as ((v1 & q1) & s3 & H1 & H2). injection H2 as <- _ _. simpl in *.
      apply IH in H1; [lia|lia].
    - intros H. apply bind_inv_ok in H. destruct H as ((v1 & q1) & s3 & H1 & H2). injection H2 as <- _ _. simpl in *.
      apply IH in H1; lia. }
  assert (U : forall l, (length (until_nul l) <= length l)%nat) by (induction l as [|c l IH]; simpl; [lia|destruct (c =? 0); simpl; lia]).
  unfold reduce_string. intros H. apply bind_inv_ok in H. destruct H as ((v & q) & s1 & H1 & H2). injection H2 as <- _.
  apply (B _ _ _ _ _ _ _ (Nat.le_refl _)) in H1. specialize (U v).
  destruct (_ && _); [|lia]. assert (G : forall l : list Z, (length (removelast l) <= length l)%nat).
  { induction l as [|a l IH]; [auto|]. destruct l; [simpl; lia|]. change (removelast (a :: z :: l)) with (a :: removelast (z :: l)). simpl in *. lia. }
  specialize (G (tl (until_nul v))). destruct (until_nul v); simpl in *; lia.
Qed.
Print Assumptions c06_no_longer.

(** A string with a quote, a backslash, a newline and a byte above 127. *)
Example c06_case :
  let t := [97; 34; 92; 110; 10; 200; 92] in
  Forall (fun c => c <> 0) t /\ escape_string t = [34; 97; 92; 34; 92; 92; 110; 10; 200; 92; 92; 34] /\
  match reduce_string (knot (mkconf (world_of []) args0) 1) (escape_string t) blank with Ok u _ => u = t | _ => False end.
Proof. split; [repeat constructor; discriminate|]. split; reflexivity. Qed.
