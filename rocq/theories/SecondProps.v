(** Theorems about expression evaluation as a whole and about the second pass (C14, C18, C47). *)
From Verif Require Import Base BaseProofs State UtilsModel ErrorsModel StorageModel ParserModel PassTwoModel
  PreopModel PassOneModel DirectiveModel Knot MainModel MonadProofs StorageProofs PassTwoSpec EvalSpec EvalProofs SecondSpec
  FrameProofs SecondProofs ResolveProofs Validate Programs.

(** ** C47: evaluating an expression has no side effects.
    [ev s s']: labels, output bytes and position, address counter, queues, modes, files written,
    console output, current line and file are as before; defines and macro arguments are as
    before except for the contents of __LINE and __FILE; problems are only added, in the current
    session; the exit status does not go down.  And an expression without a value records a
    problem.  Missing: texts and defines with a '#', which can run preprocessor lines. *)
Theorem c47_evaluation_partial C n p s : inv s -> clean p ->
  match parse_num (knot C n) p s with
  | Ok r s' => ev s s' /\ inv s' /\ (r = None -> (length (s_errs s) < length (s_errs s'))%nat)
  | Exit _ _ => False
  | _ => True
  end.
Proof.
  intros Hs Hp. pose proof (EV_parse_num _ (vf_full _ (knot_ev C n)) p Hp s Hs) as K.
  destruct (parse_num (knot C n) p s) as [r s'|? ?|?|]; auto. destruct K as (K1 & K2 & _ & K4).
  split; [exact K1|]. split; [exact K2|]. intros ->. exact (K4 eq_refl).
Qed.
Print Assumptions c47_evaluation_partial.

(** With a '#' the claim is false: evaluating a macro can include source, which emits code. *)
Definition two_files (a f : list string) : world := world_of [(zs "a.asm", prog a); (zs "/w/f.inc", prog f)].
Definition output_of (o : outcome) : option (Z * option (list Z)) :=
  match o with Done c l _ => Some (c, files_of l (zs "a.bin")) | _ => None end.
Theorem c47_refuted :
  output_of (main 60 (two_files ["#macro y"; "#include ""/w/f.inc"""; "7"; "#endmacro"; "x .equ y"; " .db 5"]%string [" .db 1,2"]%string)
    [zs "a.asm"; zs "a.bin"]) = Some (0, Some [1; 2; 5]).
Proof. vm_compute. reflexivity. Qed.
Print Assumptions c47_refuted.

(** ** C14 *)
Theorem c14_fills_reserved_partial C n s :
  minv s -> Forall qclean (s_exprs s) -> Forall oqclean (s_outputs s) -> slots_in (s_exprs s) (s_mem s) ->
  match run_second_pass C (knot C n) s with
  | Ok _ s' => filled (s_exprs s) (s_mem s) (s_mem s') /\ s_pos s' = s_pos s
  | Exit _ s' => filled (s_exprs s) (s_mem s) (s_mem s')
  | _ => True
  end.
Proof. intros. apply second_pass_ok; auto. apply knot_mv. Qed.
Print Assumptions c14_fills_reserved_partial.

(** An operand whose value is not known yet reserves bytes at the current position: the queue
    gains at most one entry, for exactly the bytes written, and every queued slot stays inside
    the output. *)
Theorem c14_reserves C n expr t size off s : minv s -> clean expr -> 0 <= s_pos s -> slots_in (s_exprs s) (s_mem s) ->
  match add_pass_two_expr C (knot C n) expr t size off s with
  | Ok _ s' => slots_in (s_exprs s') (s_mem s') /\
      (s_exprs s' = s_exprs s \/
       exists x, s_exprs s' = s_exprs s ++ [x] /\ x_pos x = s_pos s /\ x_type x = t /\ s_pos s' = s_pos s + Z.of_nat (slot t))
  | _ => True
  end.
Proof. intros. apply add_expr_ok; auto. apply knot_mv. Qed.
Print Assumptions c14_reserves.

(** C14 is false of programs in which a macro includes source: the bytes 9 were not reserved. *)
Theorem c14_refuted :
  output_of (main 60 (two_files [" .db lab,9,9,9,9,9,y"; "lab:"; "#macro y"; "#include ""/w/f.inc"""; "7"; "#endmacro"]%string
    [" .db 1,2,3,4"]%string) [zs "a.asm"; zs "a.bin"]) = Some (0, Some [7; 1; 2; 3; 4; 9; 7]).
Proof. vm_compute. reflexivity. Qed.
Print Assumptions c14_refuted.

(** ** C18: a second pass that records no problem gave every queued operand a value, with the
    labels known at the end of the first pass. *)
Theorem c18_second_pass_partial C n q s s' : inv s -> Forall qclean q ->
  second_pass_exprs C (knot C n) q s = Ok tt s' -> length (s_errs s') = length (s_errs s) ->
  Forall (has_value (knot C n) s) q.
Proof.
  intros Hs Hq E L. pose proof (exprs_went C (knot C n) (knot_ev C n) q s Hq Hs) as K. rewrite E in K. now apply K.
Qed.
Print Assumptions c18_second_pass_partial.

(** ** The hypotheses hold of the state that the first pass leaves. *)
Definition cleanb (t : text) : bool := forallb (fun c => negb (c =? 35)) t.
Definition ocleanb (t : option text) : bool := match t with Some t => cleanb t | None => true end.
Fixpoint sortedb {A} (t : list (text * A)) : bool :=
  match t with a :: (b :: _) as t' => text_ltb (fst a) (fst b) && sortedb t' | _ => true end.
Definition tokb (t : list (text * define)) : bool := sortedb t && forallb (fun e => ocleanb (d_contents (snd e))) t.
Definition invb (s : st) : bool :=
  (1 <=? s_sess s) && cleanb (s_file s) && tokb (s_defines s) && forallb (fun x => tokb (snd x)) (s_args s) &&
  forallb (fun e => e_sess e <=? s_sess s) (s_errs s).
Lemma cleanb_ok t : cleanb t = true -> clean t.
Proof. intros H. apply Forall_forall. intros x Hx. unfold cleanb in H. rewrite forallb_forall in H. specialize (H x Hx). lia. Qed.
Lemma sortedb_ok {A} (t : list (text * A)) : sortedb t = true -> table_ok t.
Proof.
  intros H. apply Sorted.Sorted_StronglySorted; [intros a b c; apply text_ltb_trans|].
  induction t as [|a t IH]; [constructor|]. destruct t as [|b t]; [constructor; constructor|].
  cbn [sortedb] in H. apply andb_true_iff in H. destruct H. constructor; [now apply IH|]. constructor. assumption.
Qed.
Lemma tokb_ok t : tokb t = true -> tok t.
Proof.
  intros H. apply andb_true_iff in H. destruct H as (H1 & H2). split; [now apply sortedb_ok|]. apply Forall_forall. intros e He.
  rewrite forallb_forall in H2. specialize (H2 e He). destruct (d_contents (snd e)); [now apply cleanb_ok|exact I].
Qed.
Lemma invb_ok s : invb s = true -> inv s /\ minv s.
Proof.
  intros H. unfold invb in H. repeat (apply andb_true_iff in H; destruct H as (H & ?)).
  assert (A : atok (s_args s)). { apply Forall_forall. intros x Hx. rewrite forallb_forall in H1. apply tokb_ok, (H1 x Hx). }
  split; split; auto using cleanb_ok, tokb_ok; [lia|]. apply Forall_forall. intros e He. rewrite forallb_forall in H0. specialize (H0 e He). lia.
Qed.
Definition conf : cfg := mkcfg true false false false false false (fun _ => None) (fun _ => 0) (zs "/w") (fun _ => repeat 0 16) true.
Definition first_pass_of (l : list string) : option st :=
  match (start_session ;;; run_first_pass conf (knot conf 30) (prog l)) (set_sess 1 blank) with Ok _ s => Some s | _ => None end.
Definition queued (l : list string) : option (list (Z * text)) :=
  match first_pass_of l with Some s => Some (map (fun e => (x_pos e, x_expr e)) (s_exprs s)) | None => None end.
Definition case14 : list string :=
  [" ld hl,table+one"; " .db 1,last,3"; "#define one 1"; "table: jr nz,last"; " .echo ""hi"""; "last: ret"]%string.
Definition readyb (s : st) : bool :=
  invb s && forallb (fun e => cleanb (x_expr e) && cleanb (x_file e)) (s_exprs s) &&
  forallb (fun o => cleanb (o_expr o) && cleanb (o_file o)) (s_outputs s) &&
  forallb (fun e => (0 <=? x_pos e) && (x_pos e + Z.of_nat (slot (x_type e)) <=? zlen (s_mem s))) (s_exprs s).
Definition second_pass_of (s : st) : option (list Z * Z * nat) :=
  match run_second_pass conf (knot conf 30) s with Ok _ s' => Some (s_mem s', s_pos s', length (s_errs s')) | _ => None end.
Example c14_case :
  match first_pass_of case14 with
  | Some s => readyb s = true /\ length (s_exprs s) = 3%nat /\ length (s_outputs s) = 1%nat /\
      s_mem s = [33; 0; 0; 1; 0; 3; 32; 0; 201] /\
      second_pass_of s = Some ([33; 7; 0; 1; 8; 3; 32; 0; 201], 9, length (s_errs s))
  | None => False
  end.
Proof. vm_compute. split; [reflexivity|]. split; [reflexivity|]. split; [reflexivity|]. split; reflexivity. Qed.
Lemma readyb_ok s : readyb s = true ->
  (inv s /\ minv s) /\ Forall qclean (s_exprs s) /\ Forall oqclean (s_outputs s) /\ slots_in (s_exprs s) (s_mem s).
Proof.
  intros H. unfold readyb in H. do 3 (apply andb_true_iff in H; destruct H as (H & ?)). split; [now apply invb_ok|].
  rewrite forallb_forall in *. split; [|split]; apply Forall_forall; intros e He.
  - specialize (H2 e He). apply andb_true_iff in H2. destruct H2. split; now apply cleanb_ok.
  - specialize (H1 e He). apply andb_true_iff in H1. destruct H1. split; now apply cleanb_ok.
  - specialize (H0 e He). lia.
Qed.
(** Queueing an operand at position 2 of a three-byte output. *)
Example c14_reserves_case :
  let s := set_pos 2 (set_mem [1; 2; 3] (set_sess 1 blank)) in
  invb s = true /\ slots_in (s_exprs s) (s_mem s) /\
  match add_pass_two_expr conf (knot conf 30) (zs "later+1") ARG_NUM_16 2 0 s with
  | Ok _ s' => map (fun e => (x_pos e, x_expr e)) (s_exprs s') = [(2, zs "later+1")] /\ s_mem s' = [1; 2; 0; 0] /\ s_pos s' = 4
  | _ => False
  end.
Proof. split; [vm_compute; reflexivity|]. split; [constructor|]. vm_compute. auto. Qed.
