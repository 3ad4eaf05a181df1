(** The second pass writes only over the placeholders of the queue. *)
From Verif Require Import Base BaseProofs State UtilsModel ErrorsModel StorageModel ParserModel PassTwoModel
  PreopModel PassOneModel DirectiveModel Knot MonadProofs UtilsSpec UtilsProofs StorageSpec StorageProofs
  PassTwoSpec PassTwoProofs EvalSpec EvalProofs SecondSpec FrameProofs.

Definition wcore (s : st) : st := set_mem [] (set_pos 0 (mcore s)).
(** [m] writes at most [k] bytes at the output position and otherwise only records problems. *)
Record wrote (k : Z) (s s' : st) : Prop := mkwrote {
  w_core : wcore s' = wcore s;
  w_defs : s_defines s' = s_defines s;
  w_args : s_args s' = s_args s;
  w_errs : exists new, s_errs s' = new ++ s_errs s /\ noted_by (s_sess s) new;
  w_sess : s_sess s' = s_sess s;
  w_pos : s_pos s <= s_pos s' <= s_pos s + k;
  w_len : 0 <= s_pos s -> s_pos s + k <= zlen (s_mem s) -> length (s_mem s') = length (s_mem s);
  w_nth : forall i, 0 <= s_pos s -> ~ (s_pos s <= Z.of_nat i < s_pos s') -> nth i (s_mem s') 0 = nth i (s_mem s) 0 }.
Definition W {A} (k : Z) (m : M A) : Prop := forall s,
  match m s with Ok _ s' => wrote k s s' | Exit _ _ => False | _ => True end.
Lemma W_bind {A B} k1 k2 (m : M A) (f : A -> M B) : W k1 m -> (forall a, W k2 (f a)) -> W (k1 + k2) (bind m f).
Proof.
  intros H1 H2 s. unfold bind. specialize (H1 s). destruct (m s) as [a s1|? ?|?|]; auto.
  specialize (H2 a s1). destruct (f a s1) as [b s2|? ?|?|]; auto. destruct H1, H2.
  split; [congruence|congruence|congruence| |congruence|lia| |].
  - destruct w_errs0 as (n1 & E1 & F1), w_errs1 as (n2 & E2 & F2). exists (n2 ++ n1). split; [rewrite E2, E1; apply app_assoc|].
    rewrite w_sess0 in F2. apply Forall_app. auto.
  - intros P L. rewrite w_len1; [apply w_len0; lia|lia|]. unfold zlen in *. rewrite w_len0; lia.
  - intros i P N. rewrite w_nth1 by lia. apply w_nth0; lia.
Qed.
Lemma errs_same s s' : s_errs s' = s_errs s -> exists new, s_errs s' = new ++ s_errs s /\ noted_by (s_sess s) new.
Proof. intros H. exists []. split; [exact H|constructor]. Qed.
Lemma W_ret {A} k (a : A) : 0 <= k -> W k (ret a).
Proof. intros H s. split; auto using errs_same; lia. Qed.
Lemma W_problem k w c : 0 <= k -> c <> 0 -> W k (set_problem w c).
Proof.
  intros H Hc s. split; auto; simpl; try lia. exists [mkerr c (s_sess s) w (s_line s) (s_file s)]. split; [reflexivity|].
  constructor; [simpl; auto|constructor].
Qed.
Lemma W_raise k n : 0 <= k -> W k (raise_exit n).
Proof. intros H s. split; auto using errs_same; simpl; lia. Qed.
Lemma W_get {A} (f : st -> A) : W 0 (get f).
Proof. intros s. split; auto using errs_same; lia. Qed.
Lemma W_write v : W 1 (write_out v).
Proof.
  intros s. unfold write_out. rewrite bind_get. destruct (_ && _) eqn:E; [|exact I]. rewrite bind_get, bind_upd.
  unfold upd. rewrite put_at_splice. split; try reflexivity; simpl; try lia; try (now apply errs_same).
  - intros P L. rewrite splice_length. simpl. unfold zlen in L. lia.
  - intros i P N. rewrite splice_nth by discriminate. simpl. clear E.
    match goal with |- (if ?b then _ else _) = _ => destruct b eqn:F end; [|reflexivity]. exfalso. lia.
Qed.
Lemma W_le {A} k k' (m : M A) : k <= k' -> W k m -> W k' m.
Proof. intros L H s. specialize (H s). destruct (m s); auto. destruct H. split; auto; lia. Qed.
Lemma W_then {A B} k (m : M A) (f : A -> M B) : W 0 m -> (forall a, W k (f a)) -> W k (bind m f).
Proof. intros H1 H2. apply (W_le (0 + k)); [lia|]. now apply W_bind. Qed.
Lemma W_when k b (m : M unit) : 0 <= k -> W k m -> W k (whenM b m).
Proof. intros H1 H2. destruct b; [exact H2|now apply W_ret]. Qed.
Lemma W_arg C v t z o : W (Z.of_nat (slot t)) (write_arg C v t z o).
Proof.
  destruct t; cbn [write_arg slot Z.of_nat Pos.of_succ_nat Pos.succ].
  - apply W_then; [apply W_when; [lia|now apply W_problem]|intros _]. apply W_write.
  - apply W_then; [apply W_when; [lia|now apply W_problem]|intros _]. apply (W_le (1 + 1)); [lia|].
    apply W_bind; [apply W_write|intros _; apply W_write].
  - apply (W_le (1 + (1 + 1))); [lia|]. apply W_bind; [apply W_write|intros _]. apply W_bind; [apply W_write|intros _; apply W_write].
  - apply W_then; [apply W_get|intros pc]. cbv zeta. destruct (_ || _); [|apply W_write].
    apply W_then; [now apply W_problem|intros _; apply W_write].
  - destruct (_ || _); [|apply W_write]. apply W_then; [now apply W_problem|intros _; apply W_write].
  - cbv zeta. apply W_then; [apply W_when; [lia|now apply W_raise]|intros _]. apply W_write.
  - destruct (rst_ok v); [apply W_write|apply W_problem; [lia|discriminate]].
Qed.

Lemma mstep_mem s s' : mstep s s' -> s_mem s' = s_mem s.
Proof. intros (H & _). exact (f_equal s_mem H). Qed.
Lemma mstep_pos s s' : mstep s s' -> s_pos s' = s_pos s.
Proof. intros (H & _). exact (f_equal s_pos H). Qed.
Lemma mstep_exprs s s' : mstep s s' -> s_exprs s' = s_exprs s.
Proof. intros (H & _). exact (f_equal s_exprs H). Qed.
Lemma mstep_outputs s s' : mstep s s' -> s_outputs s' = s_outputs s.
Proof. intros (H & _). exact (f_equal s_outputs H). Qed.
Lemma wrote_file k s s' : wrote k s s' -> s_file s' = s_file s.
Proof. intros [H _ _ _ _ _]. exact (f_equal s_file H). Qed.
Lemma wrote_exprs k s s' : wrote k s s' -> s_exprs s' = s_exprs s.
Proof. intros [H _ _ _ _ _]. exact (f_equal s_exprs H). Qed.
Lemma wrote_outputs k s s' : wrote k s s' -> s_outputs s' = s_outputs s.
Proof. intros [H _ _ _ _ _]. exact (f_equal s_outputs H). Qed.
Lemma wrote_minv k s s' : wrote k s s' -> minv s -> minv s'.
Proof.
  intros H []. split; [rewrite (wrote_file _ _ _ H)|rewrite (w_defs _ _ _ H)|rewrite (w_args _ _ _ H)]; assumption.
Qed.

(** One entry; the states it passes through. *)
Definition fills (q : list pexpr) (s s' : st) : Prop :=
  minv s' /\ filled q (s_mem s) (s_mem s') /\ s_outputs s' = s_outputs s.
Lemma fills_refl q s : minv s -> fills q s s.
Proof. intros H. split; [exact H|]. split; [split; auto|reflexivity]. Qed.
Lemma fills_trans q s1 s2 s3 : fills q s1 s2 -> fills q s2 s3 -> fills q s1 s3.
Proof.
  intros (H1 & (H2 & H3) & H4) (K1 & (K2 & K3) & K4). split; [exact K1|]. split; [split; [congruence|]|congruence].
  intros i N. rewrite K3, H3; auto.
Qed.
Lemma fills_incl q q' s s' : incl q q' -> fills q s s' -> fills q' s s'.
Proof.
  intros I (H1 & (H2 & H3) & H4). split; [exact H1|]. split; [split; [exact H2|]|exact H4].
  intros i N. apply H3. intros (e & K1 & K2). apply N. exists e. auto.
Qed.
Lemma slots_filled q q' m m' : slots_in q m -> filled q' m m' -> slots_in q m'.
Proof. intros H (L & _). unfold slots_in, zlen in *. now rewrite L. Qed.
Lemma fills_mstep q s s' : mstep s s' -> fills q s s'.
Proof.
  intros H. split; [apply H|]. rewrite (mstep_mem _ _ H). split; [split; auto|]. apply (mstep_outputs _ _ H).
Qed.

Section Second.
Variable C : cfg.
Variable R : fns.
Hypothesis HR : mvfns R.

Definition SV (q : list pexpr) (m : M unit) : Prop := forall s, minv s -> slots_in q (s_mem s) ->
  match m s with Ok _ s' | Exit _ s' => fills q s s' | _ => True end.

Lemma SV_expr e : qclean e -> SV [e] (second_pass_expr C R e).
Proof.
  intros (H1 & H2) s Hs Hq. unfold second_pass_expr. rewrite !bind_upd. unfold set_curr_reusable. rewrite bind_upd.
  set (s1 := set_curr_reus _ _). assert (I1 : minv s1) by (destruct Hs; split; auto).
  assert (F1 : fills [e] s s1) by (split; [exact I1|split; [split; auto|reflexivity]]).
  assert (M1 : s_mem s1 = s_mem s) by reflexivity. clearbody s1.
  unfold bind at 1. pose proof (MV_parse_num R (mf_full _ HR) (x_expr e) H1 s1 I1) as K.
  destruct (parse_num R (x_expr e) s1) as [r s2|? s2|?|]; auto.
  2:{ eapply fills_trans; [exact F1|]. now apply fills_mstep. }
  destruct K as (K & _). pose proof (fills_trans _ _ _ _ F1 (fills_mstep [e] _ _ K)) as F2. clear F1.
  assert (M2 : s_mem s2 = s_mem s) by (rewrite (mstep_mem _ _ K); exact M1). destruct K as (_ & I2). clear I1 M1 s1.
  destruct r as [v|]; [|exact F2].
  assert (Mv : forall m : M unit, MV any m -> match m s2 with Ok _ s' | Exit _ s' => fills [e] s s' | _ => True end).
  { intros m Hm. specialize (Hm s2 I2). destruct (m s2) as [u s4|? s4|?|]; auto;
      (eapply fills_trans; [exact F2|apply fills_mstep; apply Hm]). }
  (* the writing *)
  assert (Wr : match (upd (set_pos (x_pos e)) ;;; write_arg C v (x_type e) (x_size e) (x_or e)) s2 with
      | Ok _ s' | Exit _ s' => fills [e] s s' | _ => True end).
  { rewrite bind_upd. set (s3 := set_pos (x_pos e) s2). assert (I3 : minv s3) by (destruct I2; split; assumption).
    pose proof (W_arg C v (x_type e) (x_size e) (x_or e) s3) as Hm. unfold slots_in in Hq.
    inversion Hq as [|x l (Q1 & Q2) Q3]; subst x l. rewrite <- M2 in Q2.
    destruct (write_arg C v (x_type e) (x_size e) (x_or e) s3) as [u s4|? s4|?|]; auto; [|contradiction].
    eapply fills_trans; [exact F2|]. split; [eapply wrote_minv; eauto|]. split; [split|].
    - rewrite (w_len _ _ _ Hm); simpl; auto.
    - intros i N. rewrite (w_nth _ _ _ Hm); auto. intros B. apply N. exists e. split; [left; reflexivity|].
      pose proof (w_pos _ _ _ Hm) as P. simpl in *. lia.
    - rewrite (wrote_outputs _ _ _ Hm). reflexivity. }
  destruct (x_type e); try exact Wr. destruct (rst_ok v) eqn:E; [|apply Mv; apply MV_problem].
  cbn [write_arg]. replace (rst_ok (v + 199)) with false; [apply Mv; apply MV_problem|].
  symmetry. unfold rst_ok in *. apply memb_In in E. simpl in E. decompose [or] E; subst; try reflexivity. contradiction.
Qed.
Lemma SV_exprs : forall q, Forall qclean q -> SV q (second_pass_exprs C R q).
Proof.
  induction q as [|e q IH]; intros Hc s Hs Hq; [now apply fills_refl|]. cbn [second_pass_exprs]. inversion Hc; subst.
  inversion Hq as [|x l Q1 Q2]; subst. unfold bind.
  pose proof (SV_expr e H1 s Hs ltac:(constructor; [exact Q1|constructor])) as K.
  destruct (second_pass_expr C R e s) as [u s1|? s1|?|]; auto.
  - pose proof (fills_incl [e] (e :: q) _ _ ltac:(intros x [->|[]]; left; reflexivity) K) as F. destruct K as (K1 & K2 & K3).
    assert (Q : slots_in q (s_mem s1)) by (eapply slots_filled; [exact Q2|exact K2]). specialize (IH H2 s1 K1 Q).
    destruct (second_pass_exprs C R q s1) as [u' s2|? s2|?|]; auto;
      (eapply fills_trans; [exact F|eapply fills_incl; [|exact IH]; intros x Hx; right; exact Hx]).
  - eapply fills_incl; [|exact K]. intros x [->|[]]; left; reflexivity.
Qed.
(** Console messages: the data stays. *)
Definition same_mem (s s' : st) : Prop := minv s' /\ s_mem s' = s_mem s /\ s_pos s' = s_pos s.
Lemma same_mstep s s' : mstep s s' -> same_mem s s'.
Proof. intros H. split; [apply H|]. split; [now apply mstep_mem|now apply mstep_pos]. Qed.
Definition OV (m : M unit) : Prop := forall s, minv s -> match m s with Ok _ s' | Exit _ s' => same_mem s s' | _ => True end.
Lemma OV_bind {A} (m : M A) k : (forall s, minv s -> match m s with Ok _ s' | Exit _ s' => same_mem s s' | _ => True end) ->
  (forall a, OV (k a)) -> OV (bind m k).
Proof.
  intros Hm Hk s Hs. unfold bind. specialize (Hm s Hs). destruct (m s) as [a s1|? s1|?|]; auto. destruct Hm as (H1 & H2 & H3).
  specialize (Hk a s1 H1). destruct (k a s1) as [b s2|? s2|?|]; auto; destruct Hk as (K1 & K2 & K3);
  (split; [exact K1|split; congruence]).
Qed.
Lemma OV_MV {A} (Q : A -> Prop) (m : M A) : MV Q m -> forall s, minv s -> match m s with Ok _ s' | Exit _ s' => same_mem s s' | _ => True end.
Proof.
  intros H s Hs. specialize (H s Hs). destruct (m s); auto; apply same_mstep; tauto.
Qed.
Lemma OV_print t : OV (print t).
Proof. intros s Hs. unfold print. rewrite bind_get. split; [destruct Hs; split; assumption|split; reflexivity]. Qed.
Lemma OV_output o : oqclean o -> OV (second_pass_output C R o).
Proof.
  intros (H1 & H2) s Hs. unfold second_pass_output. rewrite !bind_upd. unfold set_curr_reusable. rewrite bind_upd.
  set (s1 := set_curr_reus _ _). assert (I1 : minv s1) by (destruct Hs; split; auto).
  assert (F : forall s', same_mem s1 s' -> same_mem s s') by (intros s' K; exact K). clearbody s1.
  match goal with |- match ?m s1 with _ => _ end =>
    enough (K : OV m) by (specialize (K s1 I1); destruct (m s1); auto) end.
  destruct (o_type o).
  - eapply OV_bind; [eapply OV_MV, MV_start|intros n].
    eapply OV_bind; [eapply OV_MV, (mf_emit _ HR); [reflexivity|exact H1]|intros [q t]].
    eapply OV_bind; [apply OV_print|intros _]. eapply OV_bind; [eapply OV_MV, MV_replay|intros _].
    intros s2 I2. apply (OV_MV _ _ (MV_end n) s2 I2).
  - eapply OV_bind; [eapply OV_MV, MV_search_defines|intros [r|]].
    + unfold show_define. eapply OV_bind; [eapply OV_MV, MV_get_define|intros d]. apply OV_print.
    + intros s2 I2. exact (OV_MV _ _ (MV_problem _ _) s2 I2).
Qed.
Lemma OV_outputs : forall l, Forall oqclean l -> OV (second_pass_outputs C R l).
Proof.
  induction 1 as [|o l H1 H2 IH]; [intros s Hs; split; auto|]. cbn [second_pass_outputs].
  apply OV_bind; [apply OV_output, H1|intros _; exact IH].
Qed.

Lemma second_pass_ok s : minv s -> Forall qclean (s_exprs s) -> Forall oqclean (s_outputs s) -> slots_in (s_exprs s) (s_mem s) ->
  match run_second_pass C R s with
  | Ok _ s' => filled (s_exprs s) (s_mem s) (s_mem s') /\ s_pos s' = s_pos s
  | Exit _ s' => filled (s_exprs s) (s_mem s) (s_mem s')
  | _ => True
  end.
Proof.
  intros Hs Hq Ho Hl. unfold run_second_pass. rewrite !bind_get. unfold bind at 1.
  pose proof (SV_exprs (s_exprs s) Hq s Hs Hl) as K. destruct (second_pass_exprs C R (s_exprs s) s) as [u s1|? s1|?|]; auto.
  2:{ apply K. }
  destruct K as (I1 & F1 & O1). rewrite !bind_upd, bind_get. set (s2 := set_pos _ _).
  assert (I2 : minv s2) by (destruct I1; split; assumption).
  assert (P2 : s_pos s2 = s_pos s) by reflexivity. assert (M2 : s_mem s2 = s_mem s1) by reflexivity.
  replace (s_outputs s2) with (s_outputs s) by (symmetry; exact O1). clearbody s2. unfold bind at 1.
  pose proof (OV_outputs (s_outputs s) Ho s2 I2) as K. destruct (second_pass_outputs C R (s_outputs s) s2) as [v s3|? s3|?|]; auto.
  - destruct K as (_ & K2 & K3). rewrite bind_upd. unfold upd. simpl. rewrite K2, M2. split; [exact F1|congruence].
  - destruct K as (_ & K2 & K3). rewrite K2, M2. exact F1.
Qed.
End Second.
