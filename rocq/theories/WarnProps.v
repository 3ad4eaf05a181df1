(** What a recorded warning does (directive.cpp:98-139; errors.cpp:110-116, 138-181, 220-277; main.cpp:118-121, 137-140). *)
From Coq Require Import String.
From Verif Require Import Programs.
From Verif Require Import Base BaseProofs State MonadProofs UtilsModel ErrorsModel StorageModel ParserModel PassTwoModel
  PreopModel PassOneModel DirectiveModel Knot MainModel Validate UtilsSpec UtilsProofs UtilsProps StorageProofs PassTwoSpec PassTwoProofs
  ParserSpec ParserProofs ParserProps StringProps InstrSpec MatchSpec MatchProps AsmSpec AsmExpand AsmProofs AsmData DirProps RefuseProps DupProps EquProps LaterProps.

(** .fill with a value that is no byte: it is cut to a byte, the bytes are written all the same, and a
    warning is recorded; with any other value none is. *)
Theorem c90_fill : forall C n s word kw gap w w' m v rest, (20 <= n)%nat -> In kw [zs "fill"; zs "block"] -> word_of word kw -> gap_ok gap -> line_over rest ->
  stands_for C s w m -> stands_for C s w' v -> 1 <= m -> 0 <= s_pos s -> s_pos s + m <= 8000000 -> 0 <= s_pc s -> s_pc s + m < 4294967296 ->
  exists s', handle_directive C (knot C n) (word ++ gap ++ wr w ++ 44 :: wr w' ++ rest) s = Ok (Some rest) s' /\
    s_mem s' = splice (s_mem s) (Z.to_nat (s_pos s)) (repeat (v mod 256) (Z.to_nat m)) /\ s_pos s' = s_pos s + m /\ s_pc s' = s_pc s + m /\
    (-128 <= v <= 255 -> s_errs s' = s_errs s) /\
    (~ -128 <= v <= 255 -> s_errs s' = mkerr 2048 (s_sess s) true (s_line s) (s_file s) :: s_errs s) /\ s_printed s' = s_printed s /\ s_exitc s' = s_exitc s.
Proof.
  intros C n s word kw gap w w' m v rest Hn Hk W G Ov S Sv Hm Hp Hr Hc Hd.
  set (b := wr w ++ 44 :: wr w' ++ rest).
  assert (E : handle_directive C (knot C n) (word ++ gap ++ b) s = (r <- dir_fill (knot C n) (skip_ws (gap ++ b)) ;; ret (Some r)) s).
  { destruct Hk as [<-|[<-|[]]]; dispatch; reflexivity. }
  rewrite E. clear E. rewrite skip_ws_app by apply G. unfold b. clear b.
  unfold dir_fill. rewrite bind_assoc. unfold bind at 1. rewrite read_skip, (read_written (Pm := no_params) [44] w); [|now right|apply S|].
  2:{ right; split; [reflexivity|]; eexists; reflexivity. }
  cbn [rx_ret rx_word rx_ptr]. rewrite bind_assoc, (bind_ok _ _ _ _ _ (parse_stands C n s w m Hn S)). cbn [or0]. cbv zeta. fold (evaluated s).
  replace (m <? 0) with false by lia.
  rewrite skip_ws_nonblank by (unfold UtilsSpec.blank; lia). unfold skip_char. cbn [hd0 tl Z.eqb Pos.eqb].
  rewrite bind_assoc, (bind_ok _ _ _ _ _ (read_written (Pm := no_params) [] w' rest (evaluated s) (or_introl eq_refl) (proj1 Sv) (or_introl Ov))). cbn [rx_ret rx_word rx_ptr].
  assert (S1 : stands_for C (evaluated s) w' v) by (apply (stands_calm C s); [right; reflexivity|exact Sv]).
  rewrite !bind_assoc. rewrite (bind_ok _ _ _ _ _ (parse_stands C n (evaluated s) w' v Hn S1)). rewrite bind_ret. cbn [or0].
  set (s1 := if (v <? -128) || (255 <? v) then noted true 2048 (set_depth 0 (set_fwd false (evaluated s))) else set_depth 0 (set_fwd false (evaluated s))).
  cbv iota. rewrite ?bind_assoc. rewrite (bind_ok _ _ _ tt s1).
  2:{ unfold s1. destruct (_ || _); reflexivity. }
  assert (F : s_pos s1 = s_pos s /\ s_pc s1 = s_pc s /\ s_mem s1 = s_mem s /\ s_printed s1 = s_printed s /\ s_exitc s1 = s_exitc s) by (unfold s1; destruct (_ || _); repeat split).
  destruct F as (F1 & F2 & F3 & F4 & F5).
  unfold add_pc, add_datasize. repeat first [rewrite bind_assoc|rewrite bind_ret|rewrite bind_get|rewrite bind_upd].
  match goal with |- context [bind (write_n _ _) _ ?x] => set (s2 := x) end.
  replace (Z.land v 255) with (v mod 256) by (symmetry; exact (Z.land_ones v 8 ltac:(lia))).
  set (l := repeat (v mod 256) (Z.to_nat m)).
  assert (Lm : zlen l = m) by (unfold l, zlen; rewrite repeat_length; lia).
  assert (Ml : map u8 l = l).
  { assert (U8 : u8 (v mod 256) = v mod 256) by (unfold u8; apply Z.mod_small, Z.mod_pos_bound; lia).
    unfold l. clear -U8. induction (Z.to_nat m) as [|k IH]; [reflexivity|]. cbn [repeat map]. now rewrite IH, U8. }
  rewrite (bind_ok _ _ s2 tt (emitted l s2)).
  2:{ rewrite write_n_all. fold l. rewrite write_all_emitted, Ml; [reflexivity| |].
      - unfold l. destruct (Z.to_nat m) eqn:Em; [lia|discriminate].
      - unfold room. rewrite Lm. change (s_pos s2) with (s_pos s1). lia. }
  eexists. split; [reflexivity|]. cbn. rewrite F1, F2, F3, F4, F5, Lm. split; [reflexivity|]. split; [reflexivity|]. split; [unfold u32; apply Z.mod_small; lia|].
  split; [|split; [|split; reflexivity]]; intros Hv; unfold s1.
  - replace ((v <? -128) || (255 <? v)) with false by lia. reflexivity.
  - replace ((v <? -128) || (255 <? v)) with true by lia. reflexivity.
Qed.

(** The numbers of the warnings. *)
Definition warnings : list Z := [2048; 2049; 2050; 2051; 2052; 1360; 1361].

(** At the end of a pass in which there was a warning, the warnings are printed and the run ends with
    the status 3 of a fatal error, before anything is written; other errors do not matter. *)
Theorem c90_ends : forall C only e s, s_sess s = 1 -> Forall (fun e => e_sess e = 1) (s_errs s) -> In e (s_errs s) -> In (e_code e) warnings -> c_counter C = false ->
  exists s', (replay_session C 1 only ;;; end_session 1) s = Exit 3 s' /\ In e (s_printed s') /\ s_outfiles s' = s_outfiles s.
Proof.
  intros C only e s H F I Hc Cc.
  assert (Fe : is_fatal (e_code e) = true) by (unfold warnings in Hc; cbn [In] in Hc; repeat (destruct Hc as [<-|Hc]; [reflexivity|]); destruct Hc).
  assert (L : lead 1 (s_errs s) = s_errs s).
  { clear I. induction F as [|x l E _ J]; [reflexivity|]. cbn [lead]. rewrite E, J. reflexivity. }
  assert (X : existsb (fun e => is_fatal (e_code e)) (lead 1 (s_errs s)) = true) by (rewrite L; apply existsb_exists; eauto).
  unfold replay_session, end_session. repeat first [rewrite bind_assoc|rewrite bind_get|rewrite bind_upd|rewrite bind_ret]. cbn [Z.eqb Pos.eqb].
  repeat first [rewrite bind_assoc|rewrite bind_get|rewrite bind_upd|rewrite bind_ret]. cbn [s_errs set_printed]. rewrite X. cbn [andb].
  eexists. split; [reflexivity|]. cbn. rewrite Cc. split; [|reflexivity]. apply in_or_app. right. unfold replay_print. apply filter_In. split; [now apply -> in_rev|].
  rewrite Forall_forall in F. rewrite (F e I), Fe. now destruct only.
Qed.

Example c90_case : exists s', handle_directive ex_conf (knot ex_conf 20) (zs "block 2+ $03 *- (%100-lab) ,300; cut") ex_state = Ok (Some (zs "; cut")) s' /\ s_pos s' = 30 /\
  exists e, In e (s_errs s') /\ In (e_code e) warnings.
Proof. vm_compute. eexists. split; [reflexivity|]. split; [reflexivity|]. eexists. split; [left; reflexivity|left; reflexivity]. Qed.
Example c90_ends_case : let s := noted true 2052 ex_state in s_sess s = 1 /\ Forall (fun e => e_sess e = 1) (s_errs s) /\ (exists e, In e (s_errs s) /\ In (e_code e) warnings) /\ c_counter ex_conf = false.
Proof. cbv zeta. split; [reflexivity|]. split; [repeat constructor|]. split; [|reflexivity]. eexists. split; [left; reflexivity|]. cbn. auto 8. Qed.

(** So a program that gets only warnings is not assembled: values cut to a byte, and an argument too
    many.  The warning about parentheses is shown at once, and does not stop the run. *)
Theorem c90_kept_refuted :
  Validate.assemble 100 [] (prog [" .db 300"]%string) = Some (3, None, [2048]) /\
  Validate.assemble 100 [] (prog [" .fill 2,300"]%string) = Some (3, None, [2048]) /\
  Validate.assemble 100 [] (prog ["#macro f(x)"; " .db x"; "#endmacro"; " f(2,3)"]%string) = Some (3, None, [2052]) /\
  Validate.assemble 100 [] (prog [" ld hl,((4))"]%string) = Some (1, Some [42; 4; 0], []).
Proof. vm_compute. repeat (split; [reflexivity|]). reflexivity. Qed.
Print Assumptions c90_fill.
Print Assumptions c90_ends.
Print Assumptions c90_kept_refuted.
