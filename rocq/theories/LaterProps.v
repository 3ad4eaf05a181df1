(** Directives that need a value at once, given an expression with a label that comes later or with
    another error (directive.cpp:73-139, 437-456; main.cpp:118-121; errors.cpp:110-116, 228-277). *)
From Coq Require Import String.
From Verif Require Import Programs.
From Verif Require Import Base BaseProofs State MonadProofs UtilsModel ErrorsModel StorageModel ParserModel PassTwoModel
  PreopModel PassOneModel DirectiveModel Knot MainModel Validate UtilsSpec UtilsProofs UtilsProps StorageProofs PassTwoSpec PassTwoProofs
  ParserSpec ParserProofs ParserProps StringProps InstrSpec MatchSpec MatchProps AsmSpec AsmExpand AsmProofs AsmData DirProps RefuseProps DupProps EquProps.

(** [w] has no value in the state [s]: evaluating it meets the error [code]. *)
Definition fails_with (C : cfg) (s : st) (w : written) (code : Z) : Prop :=
  written_ok (P := no_params) w /\ exists names, (forall m, mentions m (w_expr w) -> resolves C s names m) /\
    value (c_wrap C) (s_pc s) names (w_expr w) = Err code.
Lemma parse_fails C n s w code : (20 <= n)%nat -> fails_with C s w code ->
  exists d, parse_num (knot C n) (w_text w) s = Ok None (noted false code (set_depth d (set_fwd (code =? 262) s))).
Proof.
  intros Hn ((_ & W & _ & N & _) & names & Rs & V). cbn in N.
  pose proof (c01_left_to_right C n s names (w_expr w) (w_text w) [] [] [] W (Forall_nil _) (Forall_nil _) (or_introl eq_refl) N ltac:(lia) Rs) as P.
  cbv zeta in P. rewrite V in P. cbn [app] in P. now rewrite app_nil_r in P.
Qed.

(** .org with such an expression: the error is recorded, and the address stays what it was. *)
Theorem c89_org : forall C n s word gap w code rest, (20 <= n)%nat -> word_of word (zs "org") -> gap_ok gap -> line_over rest -> fails_with C s w code ->
  exists d, handle_directive C (knot C n) (word ++ gap ++ wr w ++ rest) s = Ok (Some rest) (noted false code (set_depth d (set_fwd (code =? 262) s))).
Proof.
  intros C n s word gap w code rest Hn W G Ov S. destruct (text_not_blank w (proj1 S)) as (T1 & T2). destruct (parse_fails C n s w code Hn S) as (d & P). exists d.
  dispatch. rewrite skip_ws_app by apply G.
  unfold dir_org. rewrite bind_assoc. unfold bind at 1. rewrite read_skip, (read_written (Pm := no_params) [] w rest s); [|auto|apply S|auto].
  cbn [rx_word rx_ptr rx_ret]. rewrite !bind_assoc. rewrite (bind_ok _ _ _ _ _ P). rewrite T1.
  destruct (w_text w); [contradiction T2; reflexivity|]. reflexivity.
Qed.

(** .fill and .block with such a count: the error is recorded, no byte is written, and neither
    the place in the output nor the address moves. *)
Theorem c89_fill : forall C n s word kw gap w wv v code rest, (20 <= n)%nat -> In kw [zs "fill"; zs "block"] -> word_of word kw -> gap_ok gap -> line_over rest ->
  fails_with C s w code -> match wv with Some w' => stands_for C s w' v /\ -128 <= v <= 255 | None => True end -> 0 <= s_pc s < 4294967296 ->
  exists s', handle_directive C (knot C n) (word ++ gap ++ wr w ++ match wv with Some w' => 44 :: wr w' | None => [] end ++ rest) s = Ok (Some rest) s' /\
    s_errs s' = mkerr code (s_sess s) false (s_line s) (s_file s) :: s_errs s /\
    s_mem s' = s_mem s /\ s_pos s' = s_pos s /\ s_pc s' = s_pc s /\ s_labels s' = s_labels s /\ s_defines s' = s_defines s /\ s_printed s' = s_printed s /\ s_exitc s' = s_exitc s.
Proof.
  intros C n s word kw gap w wv v code rest Hn Hk W G Ov S Sv Hp. destruct (parse_fails C n s w code Hn S) as (d & P).
  set (b := wr w ++ match wv with Some w' => 44 :: wr w' | None => [] end ++ rest).
  assert (E : handle_directive C (knot C n) (word ++ gap ++ b) s = (r <- dir_fill (knot C n) (skip_ws (gap ++ b)) ;; ret (Some r)) s).
  { destruct Hk as [<-|[<-|[]]]; dispatch; reflexivity. }
  rewrite E. clear E. rewrite skip_ws_app by apply G. unfold b. clear b.
  unfold dir_fill. rewrite bind_assoc. unfold bind at 1. rewrite read_skip, (read_written (Pm := no_params) [44] w); [|now right|apply S|].
  2:{ destruct wv as [w'|]; [right; split; [reflexivity|]; eexists; reflexivity|left; exact Ov]. }
  cbn [rx_ret rx_word rx_ptr]. rewrite bind_assoc, (bind_ok _ _ _ _ _ P). cbn [or0]. cbv zeta.
  change (0 <? 0) with false. change (Z.to_nat 0) with 0%nat. cbv iota.
  set (s1 := noted false code _).
  assert (U : u32 (s_pc s + 0) = s_pc s) by (rewrite Z.add_0_r; unfold u32; apply Z.mod_small; lia).
  destruct wv as [w'|].
  - destruct Sv as (Sv & Hv). cbn [app]. rewrite skip_ws_nonblank by (unfold UtilsSpec.blank; lia). unfold skip_char. cbn [hd0 tl Z.eqb Pos.eqb].
    rewrite bind_assoc, (bind_ok _ _ _ _ _ (read_written (Pm := no_params) [] w' rest s1 (or_introl eq_refl) (proj1 Sv) (or_introl Ov))). cbn [rx_ret rx_word rx_ptr].
    assert (S1 : stands_for C s1 w' v) by exact Sv.
    rewrite !bind_assoc. rewrite (bind_ok _ _ _ _ _ (parse_stands C n s1 w' v Hn S1)).
    rewrite bind_ret. cbn [or0]. replace ((v <? -128) || (255 <? v)) with false by lia.
    eexists. split; [reflexivity|]. cbn. rewrite U. repeat (split; [reflexivity|]). reflexivity.
  - cbn [app]. rewrite (over_skip rest Ov). unfold skip_char. replace (hd0 rest =? 44) with false by (destruct (over_head rest Ov) as [->|H]; unfold line_ender in *; lia).
    rewrite bind_assoc, (bind_ok _ _ _ _ _ (read_none rest s1 Ov)).
    eexists. split; [reflexivity|]. cbn. rewrite U. repeat (split; [reflexivity|]). reflexivity.
Qed.

(** .fill with such a value: the error is recorded, and the bytes written are zeros. *)
Lemma write_n_all v : forall k s, write_n k v s = write_all (repeat v k) s.
Proof.
  induction k as [|k IH]; intros s; [reflexivity|]. cbn [write_n repeat write_all]. unfold bind. destruct (write_out v s); auto.
Qed.
Lemma zeros k : map u8 (repeat 0 k) = repeat 0 k.
Proof. induction k as [|k IH]; [reflexivity|]. cbn [repeat map]. now rewrite IH. Qed.
Theorem c89_fill_value : forall C n s word kw gap w w' m code rest, (20 <= n)%nat -> In kw [zs "fill"; zs "block"] -> word_of word kw -> gap_ok gap -> line_over rest ->
  stands_for C s w m -> fails_with C s w' code -> 1 <= m -> 0 <= s_pos s -> s_pos s + m <= 8000000 -> 0 <= s_pc s -> s_pc s + m < 4294967296 ->
  exists s', handle_directive C (knot C n) (word ++ gap ++ wr w ++ 44 :: wr w' ++ rest) s = Ok (Some rest) s' /\
    s_errs s' = mkerr code (s_sess s) false (s_line s) (s_file s) :: s_errs s /\
    s_mem s' = splice (s_mem s) (Z.to_nat (s_pos s)) (repeat 0 (Z.to_nat m)) /\ s_pos s' = s_pos s + m /\ s_pc s' = s_pc s + m /\ s_printed s' = s_printed s /\ s_exitc s' = s_exitc s.
Proof.
  intros C n s word kw gap w w' m code rest Hn Hk W G Ov S Sv Hm Hp Hr Hc Hd. destruct (parse_fails C n (evaluated s) w' code Hn Sv) as (d & P).
  set (b := wr w ++ 44 :: wr w' ++ rest).
  assert (E : handle_directive C (knot C n) (word ++ gap ++ b) s = (r <- dir_fill (knot C n) (skip_ws (gap ++ b)) ;; ret (Some r)) s).
  { destruct Hk as [<-|[<-|[]]]; dispatch; reflexivity. }
  rewrite E. clear E. rewrite skip_ws_app by apply G. unfold b. clear b.
  unfold dir_fill. rewrite bind_assoc. unfold bind at 1. rewrite read_skip, (read_written (Pm := no_params) [44] w); [|now right|apply S|].
  2:{ right; split; [reflexivity|]; eexists; reflexivity. }
  cbn [rx_ret rx_word rx_ptr]. rewrite bind_assoc, (bind_ok _ _ _ _ _ (parse_stands C n s w m Hn S)). cbn [or0]. cbv zeta. fold (evaluated s).
  replace (m <? 0) with false by lia.
  rewrite skip_ws_nonblank by (unfold UtilsSpec.blank; lia). unfold skip_char. cbn [hd0 tl Z.eqb Pos.eqb].
  rewrite bind_assoc, (bind_ok _ _ _ _ _ (read_written (Pm := no_params) [] w' rest (evaluated s) (or_introl eq_refl) (proj1 Sv) (or_introl Ov))). cbn [rx_ret rx_word rx_ptr].
  rewrite !bind_assoc. rewrite (bind_ok _ _ _ _ _ P). rewrite bind_ret. cbn [or0]. change ((0 <? -128) || (255 <? 0)) with false. unfold whenM. cbv iota. change (Z.land 0 255) with 0.
  unfold add_pc, add_datasize. repeat first [rewrite bind_assoc|rewrite bind_ret|rewrite bind_get|rewrite bind_upd].
  match goal with |- context [bind (write_n _ _) _ ?x] => set (s2 := x) end.
  assert (Lm : zlen (repeat 0 (Z.to_nat m)) = m) by (unfold zlen; rewrite repeat_length; lia).
  rewrite (bind_ok _ _ s2 tt (emitted (repeat 0 (Z.to_nat m)) s2)).
  2:{ rewrite write_n_all, write_all_emitted, zeros; [reflexivity| |].
      - destruct (Z.to_nat m) eqn:Em; [lia|discriminate].
      - unfold room. rewrite Lm. change (s_pos s2) with (s_pos s). lia. }
  eexists. split; [reflexivity|]. split; [reflexivity|]. split; [reflexivity|]. split; [cbn; now rewrite Lm|]. split; [|split; reflexivity].
  cbn. unfold u32. apply Z.mod_small. lia.
Qed.

(** .seek with such an expression: the error is recorded, and the place in the output goes to that of
    address 0, whatever the label will stand for; bytes that follow replace those there. *)
Theorem c89_seek : forall C n s word gap w code rest, (20 <= n)%nat -> word_of word (zs "seek") -> gap_ok gap -> line_over rest -> fails_with C s w code ->
  0 <= s_pc s <= 2147483647 -> s_pc s <= s_pos s ->
  exists d, handle_directive C (knot C n) (word ++ gap ++ wr w ++ rest) s =
    Ok (Some rest) (set_pc 0 (set_pos (s_pos s - s_pc s) (noted false code (set_depth d (set_fwd (code =? 262) s))))).
Proof.
  intros C n s word gap w code rest Hn W G Ov S Hpc Hle. destruct (parse_fails C n s w code Hn S) as (d & P). exists d. set (s1 := noted false code _) in *.
  dispatch. rewrite skip_ws_app by apply G.
  unfold dir_seek. rewrite bind_assoc. unfold bind at 1. rewrite read_skip, (read_written (Pm := no_params) [] w rest s); [|auto|apply S|auto].
  cbn [rx_word rx_ptr]. rewrite bind_assoc, (bind_ok _ _ _ _ _ P). cbv zeta. cbn [or0].
  repeat first [rewrite bind_assoc|rewrite bind_get]. change (s_pc s1) with (s_pc s). change (s_pos s1) with (s_pos s). change (u32 0) with 0.
  assert (Wp : wrap32 (s_pc s) = s_pc s) by (unfold wrap32; rewrite Z.mod_small by lia; lia).
  assert (D : int_res C (0 - s_pc s) = ret (0 - s_pc s)).
  { unfold int_res, in_int, INT_MIN, INT_MAX. match goal with |- (if ?b then _ else _) = _ => replace b with true by lia end. reflexivity. }
  rewrite Wp, D. replace (s_pc s <? 0) with false by lia. cbn [andb].
  replace (s_pos s - s_pc s) with (s_pos s + (0 - s_pc s)) by lia.
  destruct (0 <? s_pc s); repeat first [rewrite bind_assoc|rewrite bind_ret|rewrite bind_upd]; [|reflexivity].
  replace (0 - s_pc s + s_pos s <? 0) with false by lia. reflexivity.
Qed.

(** If labels that are not known were the only errors of the first pass, its end prints nothing,
    forgets them and leaves the exit status as it was. *)
Theorem c89_dropped : forall C s, s_sess s = 1 -> Forall (fun e => e_sess e = 1 /\ e_code e = 262) (s_errs s) ->
  exists s', (replay_session C 1 true ;;; end_session 1) s = Ok tt s' /\ s_errs s' = [] /\ s_printed s' = s_printed s /\ s_exitc s' = s_exitc s /\ s_mem s' = s_mem s.
Proof.
  intros C s H F.
  assert (P : replay_print true (s_errs s) = []).
  { unfold replay_print. apply Forall_rev in F. induction F as [|e l (E1 & E2) _ I]; [reflexivity|]. cbn [filter]. rewrite E1, E2. exact I. }
  assert (L : existsb (fun e => is_fatal (e_code e)) (lead 1 (s_errs s)) = false /\ unlead 1 (s_errs s) = []).
  { clear P. induction F as [|e l (E1 & E2) _ (I1 & I2)]; [split; reflexivity|]. cbn [lead unlead]. rewrite E1. cbn [Z.eqb Pos.eqb existsb]. rewrite E2, I1. split; [reflexivity|exact I2]. }
  destruct L as (L1 & L2). unfold replay_session, end_session. repeat first [rewrite bind_assoc|rewrite bind_get|rewrite bind_upd|rewrite bind_ret]. cbn [Z.eqb Pos.eqb].
  repeat first [rewrite bind_assoc|rewrite bind_get|rewrite bind_upd|rewrite bind_ret]. rewrite P, app_nil_r. cbn [s_errs set_printed]. rewrite L1.
  eexists. split; [reflexivity|]. cbn. rewrite L2. split; [reflexivity|]. split; [now destruct (c_counter C)|]. split; reflexivity.
Qed.

Lemma late_fails : fails_with ex_conf ex_state late 262.
Proof.
  split; [exact late_ok|]. exists (fun _ => None). split; [|reflexivity].
  intros m H. assert (Em : zs "lat" = m) by (cbn [late w_expr mentions term_mentions] in H; tauto). subst m. split; [reflexivity|]. split; reflexivity.
Qed.
Example c89_case : (exists d, handle_directive ex_conf (knot ex_conf 20) (zs "Org lat; later") ex_state = Ok (Some (zs "; later")) (noted false 262 (set_depth d (set_fwd true ex_state)))) /\
  exists s', handle_directive ex_conf (knot ex_conf 20) (zs "fill lat,2+ $03 *- (%100-lab) ; later") ex_state = Ok (Some (zs "; later")) s' /\ s_pos s' = 5 /\ s_pc s' = 8.
Proof.
  assert (G : gap_ok (zs " ")) by (split; [discriminate|]; repeat constructor; unfold UtilsSpec.blank; lia).
  assert (O : line_over (zs "; later")) by (right; exists 59; eexists; split; [reflexivity|]; unfold line_ender; lia).
  assert (R1 : -128 <= 25 <= 255) by lia. assert (R2 : 0 <= s_pc ex_state < 4294967296) by (vm_compute; split; [discriminate|reflexivity]).
  split.
  - exact (c89_org ex_conf 20 ex_state (zs "Org") (zs " ") late 262 (zs "; later") (le_n 20) eq_refl G O late_fails).
  - destruct (c89_fill ex_conf 20 ex_state (zs "fill") (zs "fill") (zs " ") late (Some ex_written) 25 262 (zs "; later") (le_n 20) (or_introl eq_refl) eq_refl G O late_fails
      (conj (ex_stands ex_conf eq_refl) R1) R2) as (s' & E & _ & _ & Ep & Ec & _). exists s'. split; [exact E|]. split; [exact Ep|exact Ec].
Qed.
Example c89_fill_value_case : exists s', handle_directive ex_conf (knot ex_conf 20) (zs "block 2+ $03 *- (%100-lab) ,lat; later") ex_state = Ok (Some (zs "; later")) s' /\ s_pos s' = 30 /\ s_pc s' = 33.
Proof.
  destruct (c89_fill_value ex_conf 20 ex_state (zs "block") (zs "block") (zs " ") ex_written late 25 262 (zs "; later") (le_n 20) (or_intror (or_introl eq_refl)) eq_refl) as (s' & E & _ & _ & Ep & Ec & _).
  - split; [discriminate|]; repeat constructor; unfold UtilsSpec.blank; lia.
  - right; exists 59; eexists; split; [reflexivity|]; unfold line_ender; lia.
  - exact (ex_stands ex_conf eq_refl).
  - exact late_fails.
  - lia.
  - vm_compute. discriminate.
  - vm_compute. discriminate.
  - vm_compute. discriminate.
  - vm_compute. reflexivity.
  - exists s'. split; [exact E|]. split; [exact Ep|exact Ec].
Qed.
Example c89_seek_case : exists d, handle_directive ex_conf (knot ex_conf 20) (zs "seek lat; later") (set_pos 9 ex_state) =
  Ok (Some (zs "; later")) (set_pc 0 (set_pos 1 (noted false 262 (set_depth d (set_fwd true (set_pos 9 ex_state)))))).
Proof.
  apply (c89_seek ex_conf 20 (set_pos 9 ex_state) (zs "seek") (zs " ") late 262 (zs "; later") (le_n 20) eq_refl).
  - split; [discriminate|]; repeat constructor; unfold UtilsSpec.blank; lia.
  - right; exists 59; eexists; split; [reflexivity|]; unfold line_ender; lia.
  - exact late_fails.
  - vm_compute. split; discriminate.
  - vm_compute. discriminate.
Qed.
Example c89_dropped_case : s_sess (noted false 262 ex_state) = 1 /\ Forall (fun e => e_sess e = 1 /\ e_code e = 262) (s_errs (noted false 262 ex_state)) /\ s_errs (noted false 262 ex_state) <> [].
Proof. split; [reflexivity|]. split; [constructor; [split; reflexivity|constructor]|discriminate]. Qed.

(** In whole programs: no message and status 0.  The count, the address, the condition and the place
    of .seek are not those that the later label stands for; with the label above they are. *)
Theorem c89_silent_refuted :
  Validate.assemble 100 [] (prog [" .db 1"; " .fill y,7"; " .db 9"; "y:"]%string) = Some (0, Some [1; 9], []) /\
  Validate.assemble 100 [] (prog [" .db 1"; "y:"; " .fill y,7"; " .db 9"]%string) = Some (0, Some [1; 7; 9], []) /\
  Validate.assemble 100 [] (prog [" .db 1"; " .fill 2,y"; " .db 9"; "y:"]%string) = Some (0, Some [1; 0; 0; 9], []) /\
  Validate.assemble 100 [] (prog [" .db 1"; " .org y"; "z: .db z"; "y:"]%string) = Some (0, Some [1; 1], []) /\
  Validate.assemble 100 [] (prog [" .db 1"; "#if y"; " .db 2"; "#endif"; "y:"]%string) = Some (0, Some [1], []) /\
  Validate.assemble 100 [] (prog [" .db 1"; "y:"; "#if y"; " .db 2"; "#endif"]%string) = Some (0, Some [1; 2], []) /\
  Validate.assemble 100 [] (prog [" .db 1"; " .seek y"; " .db 3"; "y:"]%string) = Some (0, Some [3], []).
Proof. vm_compute. repeat (split; [reflexivity|]). reflexivity. Qed.
Print Assumptions c89_org.
Print Assumptions c89_fill.
Print Assumptions c89_fill_value.
Print Assumptions c89_seek.
Print Assumptions c89_dropped.
(** Likewise for a name that is defined nowhere: C18 is false even without a report. *)
Theorem c18_silent_refuted :
  Validate.assemble 100 [] (prog [" .fill nowhere,3"; " .db 2"]%string) = Some (0, Some [2], []) /\
  Validate.assemble 100 [] (prog ["#if nowhere+1"; " .db 2"; "#else"; " .db 3"; "#endif"]%string) = Some (0, Some [3], []) /\
  Validate.assemble 100 [] (prog [" .db 1"; "x = nowhere"; " .db x"]%string) = Some (0, Some [1; 1], []).
Proof. vm_compute. split; [reflexivity|]. split; reflexivity. Qed.
Print Assumptions c89_silent_refuted.
Print Assumptions c18_silent_refuted.
