(** The include search order: C34. *)
From Verif Require Import Base BaseProofs State MonadProofs UtilsModel UtilsSpec UtilsProofs ErrorsModel StorageModel ParserModel
  PassTwoModel PassTwoSpec BitmapModel PreopModel Knot MainModel Validate Programs.

(** The places where a file is looked for: the name itself if it is absolute, then each include
    directory in order; a backslash in the joined path counts as a slash. *)
Definition slashes (t : list Z) : list Z := map (fun c => if c =? 92 then 47 else c) t.
Definition absolute (t : list Z) : Prop :=
  exists b c r, t = b ++ c :: r /\ Forall UtilsSpec.blank b /\
    (c = 47 \/ c = 92 \/ ((65 <= c <= 90 \/ 97 <= c <= 122) /\ hd 0 r = 58)).
(** [f] is the first of [places] for which a file exists. *)
Definition first_of (exist : list Z -> Prop) (places : list (list Z)) (f : option (list Z)) : Prop :=
  match f with
  | Some f => exists before after, places = before ++ f :: after /\ Forall (fun g => ~ exist g) before /\ exist f
  | None => Forall (fun g => ~ exist g) places
  end.
Definition joined (name : list Z) (dirs : list (list Z)) : list (list Z) := map (fun d => slashes (d ++ 47 :: name)) dirs.

Lemma abs_path_iff t : is_abs_path t = true <-> absolute t.
Proof.
  unfold is_abs_path, absolute. destruct (skip_ws_spec t) as (b & E & Hb & Hs). cbv zeta. split.
  - intros H. destruct (skip_ws t) as [|c r] eqn:K; [discriminate|]. exists b, c, r. split; [exact E|]. split; [exact Hb|].
    cbn [hd0 hd1 length] in H. destruct (Z.eqb_spec c 47); [auto|]. destruct (Z.eqb_spec c 92); [auto|]. right. right.
    cbn [orb] in H. apply andb_true_iff in H. destruct H as (H & H2). apply andb_true_iff in H. destruct H as (_ & H1).
    split; [unfold isalpha, isupper, islower in H2; lia|]. destruct r; simpl in *; lia.
  - intros (b' & c & r & E' & Hb' & H). assert (K : skip_ws t = c :: r).
    { rewrite E', skip_ws_app by assumption. apply skip_ws_nonblank. unfold UtilsSpec.blank. lia. }
    rewrite K. cbn [hd0 hd1 length]. destruct (Z.eqb_spec c 47); [reflexivity|]. destruct (Z.eqb_spec c 92); [reflexivity|].
    cbn [orb]. destruct H as [H|[H|(H1 & H2)]]; try lia. destruct r as [|x r]; simpl in H2; [lia|]. subst x.
    simpl. unfold isalpha, isupper, islower. lia.
Qed.

(** For every directory list and every set of existing files. *)
Theorem c34_search_order C name s :
  exists f, full_path C name s = Ok f s /\
    let exist g := c_files C g <> None in
    (absolute name -> first_of exist (name :: joined name (s_incdirs s)) f) /\
    (~ absolute name -> first_of exist (joined name (s_incdirs s)) f).
Proof.
  unfold full_path. rewrite bind_get. unfold ret. eexists. split; [reflexivity|]. cbv zeta.
  set (exist := fun g => c_files C g <> None).
  assert (Ex : forall g, exists_file C g = true <-> exist g).
  { intros g. unfold exists_file, exist. destruct (c_files C g); split; congruence. }
  assert (F : forall dirs, first_of exist (joined name dirs) (find_in C dirs name)).
  { induction dirs as [|d dirs IH]; [constructor|]. cbn [find_in joined map]. fold (joined name dirs).
    change (fix_filename (d ++ 47 :: name)) with (slashes (d ++ 47 :: name)).
    destruct (exists_file C (slashes (d ++ 47 :: name))) eqn:E.
    - exists [], (joined name dirs). split; [reflexivity|]. split; [constructor|]. now apply Ex.
    - assert (N : ~ exist (slashes (d ++ 47 :: name))) by (rewrite <- Ex; congruence).
      destruct (find_in C dirs name) as [g|]; simpl in *; [|now constructor].
      destruct IH as (b & a & -> & Hb & Hg). exists (slashes (d ++ 47 :: name) :: b), a. split; [reflexivity|]. split; [now constructor|exact Hg]. }
  split; intros A.
  - apply abs_path_iff in A. rewrite A. cbn [andb]. destruct (exists_file C name) eqn:E.
    + exists [], (joined name (s_incdirs s)). split; [reflexivity|]. split; [constructor|]. now apply Ex.
    + assert (N : ~ exist name) by (rewrite <- Ex; congruence). specialize (F (s_incdirs s)).
      destruct (find_in C (s_incdirs s) name) as [g|]; simpl in *; [|now constructor].
      destruct F as (b & a & -> & Hb & Hg). exists (name :: b), a. split; [reflexivity|]. split; [now constructor|exact Hg].
  - rewrite <- abs_path_iff in A. destruct (is_abs_path name); [congruence|]. apply F.
Qed.
Print Assumptions c34_search_order.

(** What #include does with a quoted name: the text of the file found is assembled with that file
    as the current one, and the current file and line are restored after it; or an error is
    recorded.  [name] has no quote, backslash or line ender, and is not too long. *)
Definition plain_name (name : list Z) : Prop :=
  Forall (fun c => c <> 34 /\ c <> 92 /\ c <> 10 /\ c <> 13 /\ c <> 59) name /\ zlen name <= 200.
Lemma read_quoted name b rest : plain_name name -> Forall UtilsSpec.blank b -> zlen b <= 50 -> (rest = [] \/ exists c t, rest = c :: t /\ line_ender c) ->
  read_expr_gen true (34 :: name ++ 34 :: b ++ rest) [] = mkrx true rest (34 :: name ++ [34]) false.
Proof.
  intros (Hn & L) Hb Lb Hr. set (o := mkoperand [] [PStr (map SC name)] b).
  assert (T : operand_text o = 34 :: name ++ [34]).
  { unfold operand_text, pieces_text. cbn [o_body o flat_map piece_text app]. rewrite app_nil_r. f_equal. f_equal.
    clear. induction name; simpl; [reflexivity|now f_equal]. }
  pose proof (read_operand_gen [] o rest) as K. rewrite T in K. cbn [o_before o_after o app] in K.
  cbn [app] in K. rewrite <- app_assoc in K. cbn [app] in K. apply K.
  - simpl. tauto.
  - right. simpl. tauto.
  - split; [constructor|]. split; [exact Hb|]. split.
    + constructor; [|constructor]. constructor. apply Forall_map. eapply Forall_impl; [|exact Hn]. simpl. intros c. lia.
    + rewrite T. split; [exists 34, (name ++ [34]); split; [reflexivity|unfold UtilsSpec.blank; lia]|]. split.
      * exists 34, (34 :: name). split; [reflexivity|unfold UtilsSpec.blank; lia].
      * cbn [o_after o]. rewrite zlen_cons, zlen_app, zlen_cons, zlen_nil. lia.
  - right. destruct Hr as [->|(c & t & -> & Hc)]; [now left|]. right. exists c, t. auto.
Qed.
Lemma to_quote_app a r : Forall (fun c => c <> 34) a -> to_quote (a ++ 34 :: r) = a.
Proof. induction 1 as [|c a H Ha IH]; [reflexivity|]. simpl. replace (c =? 34) with false by lia. now rewrite IH. Qed.
Lemma slashes_id t : Forall (fun c => c <> 92) t -> slashes t = t.
Proof. induction 1 as [|c t H Ht IH]; [reflexivity|]. simpl. replace (c =? 92) with false by lia. now rewrite IH. Qed.

Theorem c34_include C R name b rest s : plain_name name -> Forall UtilsSpec.blank b -> zlen b <= 50 ->
  (rest = [] \/ exists c t, rest = c :: t /\ line_ender c) ->
  exists f, full_path C name s = Ok f s /\
  preop_include C R (34 :: name ++ 34 :: b ++ rest) s =
    match f with
    | None => Ok rest (alarmed 2 (noted false SPASM_ERR_FILE_NOT_FOUND s))
    | Some f =>
      match c_files C f with
      | None => Ok rest (alarmed 2 (noted false SPASM_ERR_FILE_NOT_FOUND s))
      | Some bytes =>
        if is_bitmap bytes then (handle_bitmap C R bytes ;;; ret rest) s
        else match get_file_contents bytes with
             | None => Ok rest (alarmed 2 s)
             | Some t =>
               match f_pass R (until_nul t) (set_file f (set_infiles (f :: s_infiles s) s)) with
               | Ok _ s' => Ok rest (set_line (s_line s) (set_file (s_file s) s'))
               | Exit c s' => Exit c s'
               | Undef w => Undef w
               | NoFuel => NoFuel
               end
             end
      end
    end.
Proof.
  intros Hn Hb Lb Hr. exists (if is_abs_path name && exists_file C name then Some name else find_in C (s_incdirs s) name). split; [reflexivity|].
  assert (Es : forall s0, show_error s0 = Ok tt (alarmed 2 s0)).
  { intros s0. unfold show_error, raise_exit, EXIT_ERRORS. rewrite bind_get. unfold upd, alarmed.
    destruct (Z.ltb_spec (s_exitc s0) 2); f_equal; f_equal; lia. }
  remember (if is_abs_path name && exists_file C name then Some name else find_in C (s_incdirs s) name) as f eqn:Ef.
  unfold preop_include. change (is_eol (34 :: name ++ 34 :: b ++ rest)) with false. cbv iota.
  unfold read_expr, read_expr'. rewrite (read_quoted name b rest Hn Hb Lb Hr). cbn [rx_long rx_ptr rx_word].
  rewrite bind_assoc, !bind_ret. cbn [rx_long rx_ptr rx_word].
  destruct Hn as (Hn & L).
  assert (Ex : existsb (fun c => (c =? 10) || (c =? 13) || (c =? 59)) (34 :: name ++ [34]) = false).
  { apply not_true_iff_false. rewrite existsb_exists. intros (c & Hc & H). simpl in Hc. destruct Hc as [<-|Hc]; [discriminate|].
    apply in_app_or in Hc. destruct Hc as [Hc|[<-|[]]]; [|discriminate]. rewrite Forall_forall in Hn. specialize (Hn c Hc). lia. }
  rewrite Ex.
  assert (Eu : unquote (fix_filename (34 :: name ++ [34])) = name).
  { change (fix_filename (34 :: name ++ [34])) with (slashes (34 :: name ++ [34])). rewrite slashes_id.
    - unfold unquote. rewrite (skip_ws_nonblank 34) by (unfold UtilsSpec.blank; lia). cbn [hd0 Z.eqb Pos.eqb tl]. apply to_quote_app.
      eapply Forall_impl; [|exact Hn]. simpl. intros c. lia.
    - constructor; [lia|]. apply Forall_app. split; [|repeat constructor; lia]. eapply Forall_impl; [|exact Hn]. simpl. intros c. lia. }
  rewrite Eu. rewrite (bind_ok _ _ s f s) by (unfold full_path; rewrite bind_get, Ef; reflexivity).
  assert (Nf : forall s0, (set_error SPASM_ERR_FILE_NOT_FOUND ;;; show_error ;;; ret rest) s0 =
    Ok rest (alarmed 2 (noted false SPASM_ERR_FILE_NOT_FOUND s0))).
  { intros s0. rewrite (bind_ok _ _ s0 tt (noted false SPASM_ERR_FILE_NOT_FOUND s0)) by reflexivity.
    rewrite (bind_ok _ _ _ _ _ (Es _)). reflexivity. }
  clear Ef. destruct f as [f|]; [|apply Nf]. destruct (c_files C f) as [bytes|]; [|apply Nf].
  destruct (is_bitmap bytes); [reflexivity|]. destruct (get_file_contents bytes) as [t|]; [|now rewrite (bind_ok _ _ _ _ _ (Es _))].
  rewrite bind_get, bind_upd, !bind_get, bind_upd. unfold bind at 1. cbn [s_file s_line set_infiles set_file].
  destruct (f_pass R (until_nul t) _) as [u s'|? ?|?|]; reflexivity.
Qed.
Print Assumptions c34_include.

(** Two directories have the file; the first one is taken. *)
Definition inc_world : world :=
  world_of [(zs "/p/a.inc", zs " ret"); (zs "/q/b.inc", zs " nop"); (zs "/r/b.inc", zs " halt")].
Definition inc_conf : cfg := mkconf inc_world args0.
Definition inc_state : st := set_incdirs [zs "/p"; zs "/q"; zs "/r"] (set_sess 1 blank).
Example c34_case :
  plain_name (zs "b.inc") /\ full_path inc_conf (zs "b.inc") inc_state = Ok (Some (zs "/q/b.inc")) inc_state /\
  full_path inc_conf (zs "c.inc") inc_state = Ok None inc_state /\ absolute (zs "/p/a.inc") /\
  full_path inc_conf (zs "/p/a.inc") inc_state = Ok (Some (zs "/p/a.inc")) inc_state /\
  match preop_include inc_conf (knot inc_conf 9) (34 :: zs "b.inc" ++ [34; 10]) inc_state with
  | Ok p s' => p = [10] /\ s_mem s' = [0] /\ s_file s' = s_file inc_state
  | _ => False
  end.
Proof.
  split; [split; [vm_compute; repeat constructor; discriminate|vm_compute; discriminate]|]. split; [reflexivity|].
  split; [reflexivity|]. split; [exists [], 47, (zs "p/a.inc"); split; [reflexivity|split; [constructor|now left]]|].
  split; [reflexivity|]. vm_compute. auto.
Qed.
