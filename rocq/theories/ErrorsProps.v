(** Error sessions: property C16. *)
From Verif Require Import Base State MonadProofs ErrorsModel ErrorsSpec ErrorsProofs.

(** C16: for every sequence of operations on the error module, from a fresh start, that is
    meaningful on a stack of sessions, the module behaves as that stack: it has the same number
    of open sessions, the innermost session reports the same number of problems, the same
    answer to "is one of them fatal" and "is one of them this one", the same problems have been
    printed in the same order, and it leaves the program with status 3 exactly when the stack
    says so. *)
Theorem c16_sessions_stack : forall C l s,
  s_errs s = [] -> s_sess s = 0 -> s_printed s = [] ->
  match board_run (c_counter C) (s_line s) (s_file s) l (mkboard [] []) with
  | Some (Go b) =>
      exists s', do_ops C l s = Ok tt s' /\
        s_sess s' = zlen (frames b) /\
        err_count (s_sess s') (s_errs s') = board_count b /\
        sess_fatal (s_sess s') (s_errs s') = board_stops b /\
        (forall c, sess_has (s_sess s') c (s_errs s') = board_has c b) /\
        map as_prob (s_printed s') = shown b
  | Some (Stop c b) =>
      exists s', do_ops C l s = Exit c s' /\ map as_prob (s_printed s') = shown b
  | None => True
  end.
Proof.
  intros C l s He Hs Hp.
  destruct (board_run _ _ _ l (mkboard [] [])) as [v|] eqn:E; [|exact I].
  assert (Hr : represents s (mkboard [] [])) by (constructor; simpl; rewrite ?He, ?Hs, ?Hp; reflexivity).
  pose proof (do_ops_ok C l s _ v Hr E) as Ha.
  destruct v as [b|c b]; destruct (do_ops C l s) as [[] s'|c' s'| |]; simpl in Ha; try tauto.
  - exists s'. repeat split; auto using count_ok, fatal_ok, rep_shown, rep_sess. intros; now apply has_ok.
  - destruct Ha as [<- Ha]. exists s'. split; [reflexivity|]. apply rep_shown, Ha.
Qed.

(** Non-vacuity: an inner session is dropped, another is replayed into the outer one, which is
    shown; then the program stops. *)
Definition c16_example_ops : list op :=
  [OStart; ORecord false 259; OStart; ORecord false 260; OEnd; OStart; ORecord true 2048;
   OMove 7 (zs "x"); ORecord false 262; OReplay false; OEnd; OReplay false].
Example c16_example_runs :
  board_run false 1 (zs "f") c16_example_ops (mkboard [] []) =
  Some (Go (mkboard [[mkprob 262 false 7 (zs "x"); mkprob 2048 true 1 (zs "f"); mkprob 259 false 1 (zs "f")]]
                    [mkprob 259 false 1 (zs "f"); mkprob 2048 true 1 (zs "f"); mkprob 262 false 7 (zs "x")])) /\
  (exists b, board_run false 1 (zs "f") (c16_example_ops ++ [OEnd]) (mkboard [] []) = Some (Stop 3 b)).
Proof. split; [vm_compute; reflexivity|]. eexists. vm_compute. reflexivity. Qed.

Print Assumptions c16_sessions_stack.
