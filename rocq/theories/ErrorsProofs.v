(** Error sessions refine the stack of ErrorsSpec. *)
From Coq Require Import Lia.
From Verif Require Import Base BaseProofs State MonadProofs ErrorsModel ErrorsSpec.

(** The operations on the model. *)
Definition do_op (C : cfg) (o : op) : M unit :=
  match o with
  | OStart => start_session ;;; ret tt
  | ORecord w c => set_problem w c
  | OReplay fo => n <- get s_sess ;; replay_session C n fo
  | OEnd => n <- get s_sess ;; end_session n
  | OMove ln f => upd (set_line ln) ;;; upd (set_file f)
  end.
Fixpoint do_ops (C : cfg) (l : list op) : M unit :=
  match l with [] => ret tt | o :: l' => do_op C o ;;; do_ops C l' end.

(** A problem of the specification, as the model stores it in session [n]. *)
Definition as_err (n : Z) (p : prob) : err := mkerr (p_code p) n (p_warn p) (p_line p) (p_file p).
Definition as_prob (e : err) : prob := mkprob (e_code e) (e_warn e) (e_line e) (e_file e).
(** The error list that represents a stack of depth [zlen fs]. *)
Fixpoint as_errs (fs : list (list prob)) : list err :=
  match fs with
  | [] => []
  | f :: fs' => map (as_err (zlen fs)) f ++ as_errs fs'
  end.

Record represents (s : st) (b : board) : Prop := {
  rep_errs : s_errs s = as_errs (frames b);
  rep_sess : s_sess s = zlen (frames b);
  rep_shown : map as_prob (s_printed s) = shown b }.

Lemma zlen_cons {A} (x : A) l : zlen (x :: l) = zlen l + 1.
Proof. unfold zlen. simpl length. lia. Qed.
Lemma zlen_nonneg {A} (l : list A) : 0 <= zlen l.
Proof. unfold zlen. lia. Qed.

Lemma as_prob_err n p : as_prob (as_err n p) = p.
Proof. destruct p; reflexivity. Qed.

Lemma as_errs_bound fs e : In e (as_errs fs) -> 1 <= e_sess e <= zlen fs.
Proof.
  induction fs as [|f fs IH]; simpl; [tauto|].
  rewrite in_app_iff, in_map_iff. rewrite zlen_cons. pose proof (zlen_nonneg fs).
  intros [(p & <- & _)|H']; [simpl; lia | apply IH in H'; lia].
Qed.

Lemma lead_app n f l :
  (forall e, In e l -> e_sess e <> n) -> lead n (map (as_err n) f ++ l) = map (as_err n) f.
Proof.
  intros H. induction f as [|p f IH]; simpl.
  - destruct l as [|e l]; [reflexivity|]. simpl.
    destruct (Z.eqb_spec (e_sess e) n); [|reflexivity]. exfalso. eapply H; [left; reflexivity|assumption].
  - rewrite Z.eqb_refl. now rewrite IH.
Qed.
Lemma unlead_app n f l :
  (forall e, In e l -> e_sess e <> n) -> unlead n (map (as_err n) f ++ l) = l.
Proof.
  intros H. induction f as [|p f IH]; simpl.
  - destruct l as [|e l]; [reflexivity|]. simpl.
    destruct (Z.eqb_spec (e_sess e) n); [|reflexivity]. exfalso. eapply H; [left; reflexivity|assumption].
  - rewrite Z.eqb_refl. assumption.
Qed.
Lemma replay_up_app n f l :
  (forall e, In e l -> e_sess e <> n) ->
  replay_up n (map (as_err n) f ++ l) = map (as_err (n - 1)) f ++ l.
Proof.
  intros H. induction f as [|p f IH]; simpl.
  - destruct l as [|e l]; [reflexivity|]. simpl.
    destruct (Z.eqb_spec (e_sess e) n); [|reflexivity]. exfalso. eapply H; [left; reflexivity|assumption].
  - rewrite Z.eqb_refl. now rewrite IH.
Qed.

Lemma above fs e : In e (as_errs fs) -> e_sess e <> zlen fs + 1.
Proof. intros H. apply as_errs_bound in H. lia. Qed.

Lemma is_fatal_stops p : is_fatal (p_code p) = stops p.
Proof.
  unfold is_fatal, stops, harmless, memb. simpl.
  unfold SPASM_ERR_LOCAL_LABEL_FORWARD_REF, SPASM_ERR_LABEL_NOT_FOUND, SPASM_ERR_RECURSION_DEPTH.
  destruct (p_code p =? 0), (p_code p =? 256), (p_code p =? 262), (p_code p =? 297); reflexivity.
Qed.

Lemma existsb_map {A B} (g : A -> B) f l : existsb f (map g l) = existsb (fun x => f (g x)) l.
Proof. induction l; simpl; [reflexivity|]. now rewrite IHl. Qed.
Lemma existsb_ext' {A} (f g : A -> bool) l : (forall x, f x = g x) -> existsb f l = existsb g l.
Proof. intros H. induction l; simpl; [reflexivity|]. now rewrite H, IHl. Qed.

(** The observations. *)
Lemma lead_top s b f fs :
  represents s b -> frames b = f :: fs -> lead (s_sess s) (s_errs s) = map (as_err (s_sess s)) f.
Proof.
  intros [He Hs _] Hf. rewrite Hf in He, Hs. rewrite He, Hs. simpl.
  rewrite zlen_cons in *. apply lead_app. intros e H. now apply above.
Qed.

Lemma filter_map_length {A B} (g : A -> B) f l :
  length (filter f (map g l)) = length (filter (fun x => f (g x)) l).
Proof. induction l; simpl; [reflexivity|]. destruct (f (g a)); simpl; now rewrite IHl. Qed.

Lemma lead_none s b : represents s b -> frames b = [] -> lead (s_sess s) (s_errs s) = [].
Proof. intros [He Hs _] Hf. now rewrite He, Hf. Qed.

Lemma count_ok s b : represents s b -> err_count (s_sess s) (s_errs s) = board_count b.
Proof.
  intros H. unfold err_count, board_count. destruct (frames b) as [|f fs] eqn:Hf.
  - now rewrite (lead_none _ _ H Hf).
  - rewrite (lead_top _ _ _ _ H Hf). unfold zlen. rewrite filter_map_length. reflexivity.
Qed.
Lemma fatal_ok s b : represents s b -> sess_fatal (s_sess s) (s_errs s) = board_stops b.
Proof.
  intros H. unfold sess_fatal, board_stops. destruct (frames b) as [|f fs] eqn:Hf.
  - now rewrite (lead_none _ _ H Hf).
  - rewrite (lead_top _ _ _ _ H Hf), existsb_map. apply existsb_ext'. intros; apply is_fatal_stops.
Qed.
Lemma has_ok s b c : represents s b -> sess_has (s_sess s) c (s_errs s) = board_has c b.
Proof.
  intros H. unfold sess_has, board_has. destruct (frames b) as [|f fs] eqn:Hf.
  - now rewrite (lead_none _ _ H Hf).
  - rewrite (lead_top _ _ _ _ H Hf), existsb_map. reflexivity.
Qed.

Lemma filter_none {A} (f : A -> bool) l : (forall x, In x l -> f x = false) -> filter f l = [].
Proof.
  induction l as [|x l IH]; simpl; [reflexivity|]. intros H. rewrite (H x) by auto. apply IH. auto.
Qed.

Lemma replay_print_ok fo f :
  map as_prob (replay_print fo (map (as_err 1) f))
  = filter (fun p => if fo then stops p else true) (rev f).
Proof.
  unfold replay_print. rewrite <- map_rev. generalize (rev f) as l. intros l.
  induction l as [|p l IH]; [reflexivity|]. simpl map. cbn [filter].
  cbn [e_sess e_code as_err]. rewrite is_fatal_stops. cbn [Z.eqb Pos.eqb andb].
  replace (negb fo || stops p) with (if fo then stops p else true) by (destruct fo; reflexivity).
  destruct (if fo then stops p else true); cbn [map]; rewrite ?as_prob_err; now rewrite IH.
Qed.

Definition agrees (r : res unit) (v : verdict) : Prop :=
  match r, v with
  | Ok _ s, Go b => represents s b
  | Exit c s, Stop c' b => c = c' /\ represents s b
  | _, _ => False
  end.

Lemma do_op_ok C o s b v :
  represents s b -> board_step (c_counter C) (s_line s) (s_file s) o b = Some v ->
  agrees (do_op C o s) v /\
  (match do_op C o s with
   | Ok _ s' => s_line s' = (match o with OMove ln _ => ln | _ => s_line s end) /\
                s_file s' = (match o with OMove _ f => f | _ => s_file s end)
   | _ => True end).
Proof.
  intros Hr Hv. pose proof Hr as [He Hs Hp].
  destruct o as [|w c|fo| |ln file]; simpl in Hv.
  - inversion Hv; subst; clear Hv. unfold do_op, start_session. msteps. unfold ret. split; [|auto]. constructor; simpl.
    + assumption.
    + rewrite Hs, zlen_cons. reflexivity.
    + assumption.
  - destruct (frames b) as [|f fs] eqn:Hf; [discriminate|]. inversion Hv; subst; clear Hv.
    unfold do_op, set_problem. msteps. unfold upd. split; [|auto]. constructor; simpl.
    + rewrite He, Hs. reflexivity.
    + now rewrite Hs.
    + assumption.
  - destruct (frames b) as [|f [|g fs]] eqn:Hf; [discriminate| |].
    + inversion Hv; subst; clear Hv. unfold do_op, replay_session. msteps. rewrite Hs. unfold zlen; simpl.
      split; [|auto]. constructor; simpl.
      * now rewrite He.
      * now rewrite Hs.
      * destruct (c_counter C); [assumption|]. rewrite map_app, Hp, He. simpl. rewrite app_nil_r.
        now rewrite replay_print_ok.
    + inversion Hv; subst; clear Hv. unfold do_op, replay_session. msteps. rewrite Hs.
      rewrite !zlen_cons. pose proof (zlen_nonneg fs).
      destruct (Z.eqb_spec (zlen fs + 1 + 1) 1); [lia|]. unfold upd. split; [|auto]. constructor; simpl.
      * rewrite He. cbn [as_errs]. rewrite !zlen_cons. rewrite replay_up_app.
        -- replace (zlen fs + 1 + 1 - 1) with (zlen fs + 1) by lia. rewrite map_app, <- app_assoc. reflexivity.
        -- intros e H'. rewrite in_app_iff, in_map_iff in H'. destruct H' as [(p & <- & _)|H']; [simpl; lia|].
           apply as_errs_bound in H'. lia.
      * rewrite Hs, !zlen_cons. reflexivity.
      * assumption.
  - destruct (frames b) as [|f fs] eqn:Hf; [discriminate|].
    unfold do_op, end_session. msteps. rewrite Hs.
    assert (Hl : lead (zlen (f :: fs)) (s_errs s) = map (as_err (zlen (f :: fs))) f).
    { rewrite <- Hs. eapply lead_top; eassumption. }
    assert (Hu : unlead (zlen (f :: fs)) (s_errs s) = as_errs fs).
    { rewrite He. cbn [as_errs]. apply unlead_app. intros e H'. rewrite zlen_cons. now apply above. }
    rewrite Hl, Hu, existsb_map.
    rewrite (existsb_ext' _ stops) by (intros; apply is_fatal_stops).
    destruct fs as [|g fs].
    + change (zlen [f] =? 1) with true. simpl andb.
      destruct (existsb stops f); inversion Hv; subst; clear Hv.
      * split; [|exact I]. split; [reflexivity|]. constructor; simpl; [reflexivity| |assumption].
        unfold zlen; simpl; lia.
      * split; [|simpl; auto]. constructor; simpl; [reflexivity| |assumption]. unfold zlen; simpl; lia.
    + inversion Hv; subst; clear Hv.
      pose proof (zlen_nonneg fs). destruct (Z.eqb_spec (zlen (f :: g :: fs)) 1) as [E|_].
      { rewrite !zlen_cons in E. lia. }
      cbn [andb]. split; [|simpl; auto]. constructor; simpl; [reflexivity| |assumption].
      rewrite !zlen_cons. lia.
  - inversion Hv; subst; clear Hv. unfold do_op. msteps. unfold upd. split; [|auto].
    constructor; assumption.
Qed.

Lemma do_ops_ok C l : forall s b v,
  represents s b -> board_run (c_counter C) (s_line s) (s_file s) l b = Some v ->
  agrees (do_ops C l s) v.
Proof.
  induction l as [|o l IH]; intros s b v Hr Hv; cbn [board_run do_ops] in *.
  - inversion Hv; subst. exact Hr.
  - destruct (board_step (c_counter C) (s_line s) (s_file s) o b) as [v1|] eqn:E; [|discriminate].
    destruct (do_op_ok C o s b v1 Hr E) as [Ha Hl].
    unfold bind. destruct (do_op C o s) as [u s1|c s1| |] eqn:Ed; destruct v1 as [b1|c1 b1]; simpl in Ha; try tauto.
    + destruct Hl as [H1 H2]. apply (IH s1 b1); [assumption|]. rewrite H1, H2. destruct o; assumption.
    + inversion Hv; subst. exact Ha.
Qed.
