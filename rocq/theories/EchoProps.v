(** Echoing to a file (C81). *)
From Coq Require Import String.
From Verif Require Import Base BaseProofs State MonadProofs UtilsModel ErrorsModel StorageModel ParserModel PassTwoModel
  PreopModel PassOneModel DirectiveModel Knot MainModel Programs Validate UtilsSpec UtilsProofs UtilsProps StorageProofs PassTwoSpec PassTwoProofs
  ParserSpec ParserProofs ParserProps StringProps InstrSpec MatchSpec MatchProps AsmSpec AsmExpand AsmProofs AsmData AddProps DirProps.

(** The files of the disk after the echoes of a run, the last of which is first in the list:
    each replaces the file or is put behind what it holds. *)
Fixpoint disk_after (ops : list (text * bool * text)) (disk : text -> text) (f : text) : text :=
  match ops with
  | [] => disk f
  | (g, append, t) :: ops' =>
    if eqbl f g then (if append then disk_after ops' disk f else []) ++ t else disk_after ops' disk f
  end.
(** Where a file is looked for: in the current directory unless the name starts at the root. *)
Definition slashes (t : text) : text := map (fun c => if c =? 92 then 47 else c) t.
Definition rooted (name : text) : bool :=
  match name with c :: _ => (c =? 47) || (c =? 92) | [] => false end ||
  match name with c :: d :: _ => (d =? 58) && (((65 <=? c) && (c <=? 90)) || ((97 <=? c) && (c <=? 122))) | _ => false end.
Definition place (dir name : text) : text := slashes (if rooted name then name else dir ++ zs "/" ++ name).
(** No name begins with a quotation mark. *)
Definition names_plain (s : st) : Prop :=
  Forall (fun d => hd0 (fst d) <> 34) (s_defines s) /\ Forall (fun a => Forall (fun d : text * define => hd0 (fst d) <> 34) (snd a)) (s_args s).
Lemma tfind_plain {A} k (t : list (text * A)) : hd0 k = 34 -> Forall (fun d => hd0 (fst d) <> 34) t -> tfind k t = None.
Proof.
  intros Hk. induction 1 as [|[a d] t H _ IH]; [reflexivity|]. cbn [tfind fst] in *. destruct (eqbl k a) eqn:E; [|exact IH].
  apply eqbl_eq in E. subst. congruence.
Qed.
Lemma key_quote C t : hd0 (key C (34 :: t)) = 34.
Proof. unfold key. destruct (c_case C); reflexivity. Qed.
Lemma unknown_quoted C t s : names_plain s -> search_defines C (34 :: t) true s = Ok None s.
Proof.
  intros (N1 & N2). unfold search_defines. cbv zeta. rewrite !bind_get. rewrite (tfind_plain _ _ (key_quote C t) N1).
  assert (Fa : forall l, Forall (fun a : nat * list (text * define) => Forall (fun d => hd0 (fst d) <> 34) (snd a)) l -> find_arg (key C (34 :: t)) l = None).
  { induction 1 as [|[i a] l H _ IH]; [reflexivity|]. cbn [find_arg snd] in *. now rewrite (tfind_plain _ _ (key_quote C t) H). }
  rewrite (Fa _ N2).
  assert (K : forall x, hd0 x <> 34 -> eqbl (key C (34 :: t)) x = false).
  { intros x Hx. destruct (eqbl _ x) eqn:E; [|reflexivity]. apply eqbl_eq in E. rewrite <- E, key_quote in Hx. congruence. }
  rewrite !K by (vm_compute; discriminate). reflexivity.
Qed.

(** .echo > name, values or .echo >> name, values: the texts of the values, strings as they are and numbers in
    decimal, are the new contents of the file, or are put behind the old ones; nothing else
    changes. *)
Theorem c81_echo_file : forall C n s word gap mark b1 name l ts rest, (20 <= n)%nat -> word_of word (zs "echo") -> gap_ok gap -> line_over rest ->
  mark = 62 \/ UtilsSpec.blank mark -> Forall UtilsSpec.blank b1 ->
  name <> [] -> Forall (fun c => c <> 0) name -> ~ UtilsSpec.blank (hd0 name) -> zlen (lit_text name) <= 254 ->
  l <> [] -> open_only s -> names_plain s -> Forall (datum_ok (P := no_params)) l -> Forall2 (says C s) l ts ->
  (exists c t, data_text l = c :: t /\ (c = 32 \/ c = 9)) ->
  exists s', handle_directive C (knot C (S n)) (word ++ gap ++ 62 :: mark :: b1 ++ lit_text name ++ data_text l ++ rest) s = Ok (Some rest) s' /\
    (exists s1, calm s s1 /\ s' = set_echofiles (s_echofiles s') s1) /\
    forall disk f, disk_after (s_echofiles s') disk f =
      if eqbl f (place (c_cwd C) name) then (if mark =? 62 then disk_after (s_echofiles s) disk f else []) ++ List.concat ts
      else disk_after (s_echofiles s) disk f.
Proof.
  intros C n s word gap mark b1 name l ts rest Hn W G Ov Mk B1 Nn N0 Nb Nz Nl Op Np F Sy (c & t & E1 & Bc).
  assert (Hq : skip_ws (gap ++ 62 :: mark :: b1 ++ lit_text name ++ data_text l ++ rest) = 62 :: mark :: b1 ++ lit_text name ++ data_text l ++ rest).
  { rewrite skip_ws_app by apply G. apply skip_ws_nonblank. unfold UtilsSpec.blank. lia. }
  assert (Ed : handle_directive C (knot C (S n)) (word ++ gap ++ 62 :: mark :: b1 ++ lit_text name ++ data_text l ++ rest) s =
    dir_echo_file C (knot C (S n)) (62 :: mark :: b1 ++ lit_text name ++ data_text l ++ rest) s).
  { dispatch. rewrite Hq. reflexivity. }
  rewrite Ed. clear Ed Hq. unfold dir_echo_file. cbn [tl].
  rewrite (skip_ws_app _ _ B1). assert (Sk : skip_ws (lit_text name ++ data_text l ++ rest) = lit_text name ++ data_text l ++ rest).
  { unfold lit_text. cbn [app]. apply skip_ws_nonblank. unfold UtilsSpec.blank. lia. }
  rewrite Sk. replace (is_eol (lit_text name ++ data_text l ++ rest)) with false by reflexivity.
  assert (Rd : read_expr (lit_text name ++ data_text l ++ rest) [32; 9] s = Ok (mkrx true (data_text l ++ rest) (lit_text name) false) s).
  { pose proof (read_operand_gen [32; 9] (mkoperand [] [PStr (map lit_item name)] []) (data_text l ++ rest)) as Q. unfold operand_text in Q.
    cbn [o_before o_body o_after app] in Q. rewrite lit_pieces in Q. unfold read_expr, read_expr'. rewrite Q; [reflexivity|cbn; lia|now left| |].
    - unfold operand_okd, operand_text. cbn [o_before o_body o_after]. rewrite lit_pieces. split; [constructor|]. split; [constructor|].
      split; [constructor; [constructor; apply lit_items_ok|constructor]|].
      split; [exists 34; eexists; split; [reflexivity|unfold UtilsSpec.blank; lia]|]. split; [|change (zlen []) with 0; lia].
      exists 34, (34 :: flat_map lit_char name). split; [reflexivity|]. unfold UtilsSpec.blank. lia.
    - left. rewrite E1. cbn [app]. right. exists c, (t ++ rest). split; [reflexivity|]. cbn [In]; lia. }
  rewrite (bind_ok _ _ _ _ _ Rd). cbn [rx_word rx_ptr].
  rewrite (bind_ok _ _ _ _ _ (unknown_quoted C (flat_map lit_char name ++ [34]) s Np : search_defines C (lit_text name) true s = _)). rewrite bind_ret.
  rewrite lit_escape. destruct (c06_round_trip C n name s N0) as (used & Er). rewrite (bind_ok _ _ _ _ _ Er).
  set (s1 := settled used s). assert (C1 : calm s s1) by apply calm_settled. cbv zeta.
  assert (Sn : skip_ws name = name) by (destruct name as [|x name]; [congruence|apply skip_ws_nonblank; exact Nb]).
  assert (Ab : is_abs_path name = rooted name).
  { unfold is_abs_path. rewrite Sn. unfold rooted. destruct name as [|x [|y name']]; [congruence|reflexivity|reflexivity]. }
  rewrite Ab, Sn.
  assert (Em : exists s2, f_emit (knot C (S n)) (data_text l ++ rest) E_FILE s1 = Ok (rest, List.concat ts) s2 /\ calm s1 s2).
  { change (f_emit (knot C (S n))) with (parse_emit_string C (knot C n)).
    destruct (emit_list C n E_FILE rest Hn eq_refl Ov l ts (set_emitlev (s_emitlev s1 + 1) s1) (S (length (data_text l ++ rest))) None true) as (s2 & E & Cm); auto.
    { pose proof (data_length l F rest Nl). pose proof (skip_ws_length (data_text l ++ rest)). lia. } { exact (open_calm _ _ C1 Op). }
    { assert (Sy1 : Forall2 (says C s1) l ts) by (clear -Sy C1; induction Sy; constructor; auto; now apply (says_calm C s)). exact Sy1. }
    exists (set_emitlev (s_emitlev s1) s2). split.
    - unfold parse_emit_string. rewrite bind_get, bind_upd. unfold bind at 1. rewrite E. rewrite bind_get, bind_upd. unfold ret. rewrite app_nil_r.
      assert (Lv : s_emitlev s2 = s_emitlev s1 + 1) by (destruct Cm as [->| ->]; reflexivity). rewrite Lv.
      now replace (s_emitlev s1 + 1 - 1) with (s_emitlev s1) by lia.
    - destruct Cm as [->| ->]; [left|right]; now destruct s1. }
  destruct Em as (s2 & Em & C2). rewrite (bind_ok _ _ _ _ _ Em). rewrite bind_get, bind_upd. eexists. split; [reflexivity|].
  assert (Ef : s_echofiles s2 = s_echofiles s) by (destruct C2 as [->| ->], C1 as [->| ->]; reflexivity).
  split. { exists s2. split; [exact (calm_trans _ _ _ C1 C2)|]. cbn. reflexivity. }
  intros disk f. cbn [s_echofiles set_echofiles disk_after]. rewrite Ef. unfold place, slashes, fix_filename.
  change (zs "/" ++ name) with (47 :: name). reflexivity.
Qed.
Print Assumptions c81_echo_file.
Definition case81 : world := world_of [(zs "a.asm", prog ["lab = 9"; ".echo > ""log"" ""at "",lab"; ".Echo >> ""log"" ""+"",lab*2"; ".echo > ""/other"" 1"]%string)].
Example c81_case : names_plain (ex_state) /\ place (zs "/w") (zs "log") = zs "/w/log" /\
  match main 100 case81 [zs "a.asm"; zs "a.bin"] with
  | Done 0 _ (Some s) =>
    disk_after (s_echofiles s) (fun _ => zs "old") (zs "/w/log") = zs "at 9+18" /\ disk_after (s_echofiles s) (fun _ => zs "old") (zs "/other") = zs "1" /\
    disk_after (s_echofiles s) (fun _ => zs "old") (zs "third") = zs "old"
  | _ => False
  end.
Proof. split; [split; repeat constructor; discriminate|]. vm_compute. repeat (split; [reflexivity|]). reflexivity. Qed.
(** Without a blank behind the mark the first character of the name is lost: the file written is
    another one. *)
Theorem c81_no_blank_refuted :
  match main 100 (world_of [(zs "a.asm", prog [".echo >log.txt 1"]%string)]) [zs "a.asm"; zs "a.bin"] with
  | Done 0 _ (Some s) => map (fun x => fst (fst x)) (s_echofiles s) = [zs "/w/og.txt"]
  | _ => False
  end.
Proof. vm_compute. reflexivity. Qed.
Print Assumptions c81_no_blank_refuted.

(** A label that comes later in the file is left out of the text echoed, without a message
    (C62). *)
Theorem c62_later_refuted :
  match main 100 (world_of [(zs "a.asm", prog [" .echo ""v="",later,""!"""; " nop"; "later: nop"]%string)]) [zs "a.asm"; zs "a.bin"] with
  | Done 0 _ (Some s) => s_stdout s = [zs "v=!" ++ [10]] /\ s_printed s = [] /\ s_errs s = []
  | _ => False
  end.
Proof. vm_compute. split; [reflexivity|]. split; reflexivity. Qed.
Print Assumptions c62_later_refuted.
