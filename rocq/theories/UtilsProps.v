(** Lexical scanners, operand lists, file names, file reading: C05, C07, C35, C42, C46. *)
From Verif Require Import Base BaseProofs State MonadProofs UtilsModel ErrorsModel ParserModel UtilsSpec UtilsProofs.

(** Reading operands until none is left, as the directives and macro calls do
    (e.g. directive.cpp:126-150). *)
Fixpoint read_operands (n : nat) (p : text) (more : bool) : M (list text * text) :=
  match n with
  | O => nofuel
  | S n' =>
    let* ' (w, p', more') := extract_arg p more in
    match w with
    | None => ret ([], p')
    | Some w => let* ' (l, q) := read_operands n' p' more' in ret (w :: l, q)
    end
  end.

Lemma extract_none rest s : stops_list rest -> extract_arg rest false s = Ok (None, rest, false) s.
Proof.
  intros H. unfold extract_arg, read_expr, read_expr', read_expr_gen.
  assert (E : skip_ws rest = rest /\ is_eol rest || (hd0 rest =? 41) = true).
  { destruct H as [->|(c & t & -> & Hc)]; [split; reflexivity|]. split.
    - apply skip_ws_nonblank. unfold line_ender, blank in *. lia.
    - destruct Hc as [Hc| ->]; [|reflexivity]. apply (is_eol_cons c t) in Hc. now rewrite Hc. }
  destruct E as [-> ->]. reflexivity.
Qed.

Lemma read_operands_ok l : l <> [] -> Forall operand_ok l -> forall rest more s, stops_list rest ->
  read_operands (S (length l)) (list_text l ++ rest) more s = Ok (map operand_text l, rest) s.
Proof.
  induction l as [|o l IH]; intros Hn Hl rest more s Hr; [congruence|].
  inversion Hl as [|? ? Ho Hl']; subst. destruct l as [|o2 l].
  - cbn [list_text length]. cbn [read_operands]. rewrite <- !app_assoc.
    erewrite bind_ok by (apply extract_operand; auto).
    assert (E : hd0 rest =? 44 = false).
    { destruct Hr as [->|(c & t & -> & Hc)]; [reflexivity|]. simpl. unfold line_ender in Hc. lia. }
    rewrite E. rewrite (bind_ok _ _ s ([], rest) s); [reflexivity|].
    erewrite bind_ok by (apply extract_none, Hr). reflexivity.
  - change (list_text (o :: o2 :: l)) with (o_before o ++ operand_text o ++ o_after o ++ 44 :: list_text (o2 :: l)).
    change (length (o :: o2 :: l)) with (S (length (o2 :: l))).
    cbn [read_operands]. rewrite <- !app_assoc. cbn [app].
    erewrite bind_ok by (apply extract_operand; eauto).
    cbn [hd0 tl]. change (44 =? 44) with true. cbv iota.
    rewrite (bind_ok _ _ s (map operand_text (o2 :: l), rest) s); [reflexivity|].
    apply (IH ltac:(discriminate) Hl' rest true s Hr).
Qed.

(** C05.  (1) A comma-separated list of operands, each made of characters, literals and
    balanced groups, is read back as exactly the operands written, the rest of the line is
    untouched, and no error is recorded.  (2) On any text whatever, reading one operand
    consumes only blanks and the operand: the text is the blanks, the operand before
    trimming, and what is left, which begins with a comma, a line ender, an unmatched closing
    parenthesis, or is empty; unless the operand was too long. *)
Theorem c05_operand_lists :
  (forall l rest more s, l <> [] -> Forall operand_ok l -> stops_list rest ->
     read_operands (S (length l)) (list_text l ++ rest) more s = Ok (map operand_text l, rest) s) /\
  (forall p, let r := read_expr_gen true p [44] in
     if rx_ret r then rx_long r = false ->
       exists ws raw tail, p = ws ++ raw ++ tail ++ rx_ptr r /\ Forall blank ws /\
         rx_word r = raw /\ Forall (fun c => isspace c = true) tail /\
         (ends_at [44] (rx_ptr r) \/ hd0 (rx_ptr r) = 41)
     else rx_long r = false /\ rx_word r = [] /\
       exists ws, p = ws ++ rx_ptr r /\ Forall blank ws /\ (ends_at [] (rx_ptr r) \/ hd0 (rx_ptr r) = 41)).
Proof.
  split; [intros; now apply read_operands_ok|].
  intros p r. pose proof (read_expr_gen_total true p [44]) as H. cbv zeta in H. fold r in H.
  destruct (rx_ret r); [|exact H]. intros L. destruct (H L) as (ws & w & E & Hws & He & Hw).
  destruct (rtrim_spec w) as (b & Eb & Hb & _).
  exists ws, (rev (rtrim w)), (rev b). repeat split; auto.
  - rewrite E. f_equal. rewrite Eb at 1. now rewrite rev_app_distr, <- app_assoc.
  - now apply Forall_rev.
Qed.
Print Assumptions c05_operand_lists.

(** Non-vacuity: a string with a comma and an escaped quote, a call with nested parentheses
    and a semicolon, and an escaped character, with a comment after them. *)
Definition c05_ops : list operand :=
  [mkoperand [32] [PStr [SC 97; SC 44; SC 98; SE 34]] [32];
   mkoperand [32; 9] [PChar 102; PGroup [PChar 49; PChar 44; PGroup [PChar 50; PChar 59]]] [32];
   mkoperand [] [PEsc 92] []].
Example c05_example : Forall operand_ok c05_ops /\ stops_list (zs "; comment") /\
  list_text c05_ops = zs " ""a,b\"""" , " ++ 9 :: zs "f(1,(2;)) ,'\\'" /\
  map operand_text c05_ops = [zs """a,b\"""""; zs "f(1,(2;))"; zs "'\\'"].
Proof.
  split; [|split; [right; exists 59; eexists; split; [reflexivity|]; unfold line_ender; lia|split; reflexivity]].
  assert (P : forall c, ~ bracket c -> ~ In c [44] -> ~ line_ender c -> piece_ok [44] true (PChar c))
    by (intros; constructor; auto).
  constructor; [|constructor; [|constructor; [|constructor]]]; unfold operand_ok; cbn [o_before o_body o_after].
  - split; [repeat constructor; unfold blank; lia|]. split; [repeat constructor; unfold blank; lia|].
    split; [repeat constructor; lia|]. split; [eexists _, _; split; [reflexivity|unfold blank; lia]|].
    split; [exists 34, (zs """a,b\"""); split; [reflexivity|unfold blank; lia]|vm_compute; discriminate].
  - split; [repeat constructor; unfold blank; lia|]. split; [repeat constructor; unfold blank; lia|].
    split; [repeat constructor; try discriminate; unfold bracket, line_ender in *; simpl; lia|].
    split; [eexists _, _; split; [reflexivity|unfold blank; lia]|].
    split; [exists 41, (zs "f(1,(2;)"); split; [reflexivity|unfold blank; lia]|vm_compute; discriminate].
  - split; [constructor|]. split; [constructor|].
    split; [repeat constructor; lia|]. split; [eexists _, _; split; [reflexivity|unfold blank; lia]|].
    split; [exists 39, (zs "'\\"); split; [reflexivity|unfold blank; lia]|vm_compute; discriminate].
Qed.

(** C07.  White space, names, physical lines, and code lines: each scanner stops exactly at
    the first character outside its class, and a code line made of characters, strings and
    character literals ends at its comment, backslash or line break, never inside a literal. *)
Theorem c07_scanners :
  (forall p, exists a, p = a ++ skip_ws p /\ Forall blank a /\
     (skip_ws p = [] \/ exists c t, skip_ws p = c :: t /\ ~ blank c)) /\
  (forall p, exists a, p = a ++ skip_to_name_end p /\ Forall (fun c => is_name_char c = true) a /\
     (skip_to_name_end p = [] \/ exists c t, skip_to_name_end p = c :: t /\ is_name_char c = false)) /\
  (forall com p t, Forall (fun c => ~ line_break c) com -> broken p t -> skip_to_next_line (com ++ p) = t) /\
  (forall b l p t, Forall blank b -> Forall (flat_ok [92; 59; 13; 10]) l ->
     (l = [] \/ exists c u, pieces_text l = c :: u /\ ~ blank c /\ c <> 41) ->
     code_break p t -> next_code_line (b ++ pieces_text l ++ p) = t) /\
  (forall p delims, exists a, p = a ++ next_expr p delims /\
     (ends_at delims (next_expr p delims) \/ hd0 (next_expr p delims) = 41)).
Proof.
  exact (conj skip_ws_spec (conj skip_name_spec (conj skip_to_next_line_spec
          (conj next_code_line_spec (fun p d => next_expr_total d p))))).
Qed.
Print Assumptions c07_scanners.

(** Non-vacuity: semicolons in literals, before a backslash and a comment. *)
Example c07_example :
  next_code_line (zs "  ld a,';' \ x") = zs " x" /\
  next_code_line (zs " .db ""a;\"";"" ; c" ++ [13; 10; 65]) = [65] /\
  Forall (flat_ok [92; 59; 13; 10]) [PChar 100; PChar 32; PLit 59; PStr [SC 59; SE 34]] /\
  code_break (59 :: zs " c" ++ [13; 10; 65]) [65].
Proof.
  repeat split; try reflexivity.
  - repeat constructor; simpl; unfold line_ender; lia.
  - apply (cb_comment (zs " c") [13; 10; 65]); repeat constructor; unfold line_break; vm_compute; intuition discriminate.
Qed.

(** C07 for the text of a #define: the end of the value is found by another scanner, which
    respects strings without an escaped backslash... *)
Theorem c07_define_value_partial : forall l p, Forall value_piece l -> value_stop p ->
  skip_to_line_end (pieces_text l ++ p) = p.
Proof. exact skip_line_end_pieces. Qed.
Print Assumptions c07_define_value_partial.
Example c07_value_example : value_stop (zs "; c") /\ Forall value_piece [PChar 65; PStr [SC 59; SE 34]] /\
  pieces_text [PChar 65; PStr [SC 59; SE 34]] ++ zs "; c" = zs "A"";\""""; c".
Proof.
  split; [right; exists 59; eexists; split; [reflexivity|lia]|]. split; [repeat constructor; simpl; lia|reflexivity].
Qed.
(** ... but not character literals, nor a string ending in an escaped backslash: a well-formed
    value followed by a comment is cut inside the literal, or extended into the comment. *)
Theorem c07_define_value_refuted :
  exists l1 l2 com, Forall (flat_ok [92; 59; 13; 10]) l1 /\ Forall (flat_ok [92; 59; 13; 10]) l2 /\
    hd0 com = 59 /\
    (exists t, skip_to_line_end (pieces_text l1 ++ com) = t /\ (length com < length t)%nat) /\
    (exists t, skip_to_line_end (pieces_text l2 ++ com) = t /\ (length t < length com)%nat).
Proof.
  exists [PLit 59], [PStr [SE 92]], (zs ";c").
  split; [repeat constructor; discriminate|]. split; [repeat constructor|]. split; [reflexivity|].
  split; eexists; (split; [vm_compute; reflexivity|simpl; lia]).
Qed.
Print Assumptions c07_define_value_refuted.

(** C35. *)
Theorem c35_change_extension :
  (forall stem old ext, ~ In 46 old -> change_extension (stem ++ 46 :: old) ext = stem ++ 46 :: ext) /\
  (forall name ext, ~ In 46 name -> change_extension name ext = name ++ 46 :: ext).
Proof.
  split; intros; unfold change_extension.
  - pose proof (before_last_spec 46 (stem ++ 46 :: old)) as S. destruct (before_last 46 (stem ++ 46 :: old)) as [r|].
    + destruct S as (t & E & Ht). f_equal.
      assert (L : forall a b c d, ~ In 46 b -> ~ In 46 d -> a ++ 46 :: b = c ++ 46 :: d -> c = a).
      { clear. induction a as [|x a IH]; intros b [|y c] d Hb Hd E; simpl in E; [reflexivity| | |].
        - exfalso. apply Hb. injection E as _ ->. apply in_or_app. right. left. reflexivity.
        - exfalso. apply Hd. injection E as _ <-. apply in_or_app. right. left. reflexivity.
        - injection E as -> E. f_equal. eauto. }
      exact (L _ _ _ _ H Ht E).
    + exfalso. apply S, in_or_app. right. left. reflexivity.
  - pose proof (before_last_spec 46 name) as S. destruct (before_last 46 name) as [r|]; [|reflexivity].
    destruct S as (t & E & Ht). exfalso. apply H. rewrite E. apply in_or_app. right. left. reflexivity.
Qed.
Print Assumptions c35_change_extension.
Example c35_example : change_extension (zs "dir.d/prog.z80") (zs "bin") = zs "dir.d/prog.bin" /\
  change_extension (zs "prog") (zs "lab") = zs "prog.lab".
Proof. split; reflexivity. Qed.

(** C46: the last dot may belong to a directory, so the default output file need not be
    beside the source file.  Proved when the last dot is after the last slash. *)
Theorem c46_output_beside_source_partial : forall dir stem old,
  ~ In 46 old -> ~ In 47 old -> ~ In 47 stem ->
  change_extension (dir ++ 47 :: stem ++ 46 :: old) (zs "bin") = dir ++ 47 :: stem ++ 46 :: zs "bin".
Proof.
  intros dir stem old H _ _.
  replace (dir ++ 47 :: stem ++ 46 :: old) with ((dir ++ 47 :: stem) ++ 46 :: old)
    by (rewrite <- app_assoc; reflexivity).
  rewrite (proj1 c35_change_extension _ _ _ H), <- app_assoc. reflexivity.
Qed.
Theorem c46_output_beside_source_refuted : exists dir name, ~ In 47 name /\
  forall stem, ~ In 47 stem -> change_extension (dir ++ 47 :: name) (zs "bin") <> dir ++ 47 :: stem.
Proof.
  exists (zs ".."), (zs "prog"). split; [vm_compute; intuition discriminate|].
  intros stem _ E. vm_compute in E. discriminate.
Qed.
Print Assumptions c46_output_beside_source_partial.
Print Assumptions c46_output_beside_source_refuted.
Example c46_example : change_extension (zs "a/b.asm") (zs "bin") = zs "a/b.bin".
Proof. reflexivity. Qed.

(** C42: the bytes of the file, without a byte order mark... *)
Definition bom : list Z := [239; 187; 191].
Theorem c42_file_contents_partial :
  (forall f, get_file_contents (bom ++ f) = Some f) /\
  (forall f, (3 <= length f)%nat -> (forall g, f <> bom ++ g) -> get_file_contents f = Some f) /\
  (forall a f, a <> 239 -> get_file_contents (a :: f) = Some (a :: f)).
Proof.
  split; [reflexivity|]. split.
  - intros f Hl Hb. destruct f as [|a [|b [|c f]]]; simpl in Hl; try lia. simpl.
    destruct (a =? 239) eqn:Ea; [|reflexivity]. destruct (b =? 187) eqn:Eb; [|reflexivity].
    destruct (c =? 191) eqn:Ec; [|reflexivity]. exfalso. apply (Hb f). unfold bom. simpl.
    repeat f_equal; lia.
  - intros a f Ha. simpl. now replace (a =? 239) with false by lia.
Qed.
(** ... except that an empty file, or one that is a proper prefix of the mark, cannot be read. *)
Theorem c42_file_contents_refuted :
  get_file_contents [] = None /\ get_file_contents [239] = None /\ get_file_contents [239; 187] = None.
Proof. repeat split. Qed.
Print Assumptions c42_file_contents_partial.
Print Assumptions c42_file_contents_refuted.
Example c42_example : get_file_contents (bom ++ zs "x") = Some (zs "x") /\
  get_file_contents [239; 187; 190; 65] = Some [239; 187; 190; 65].
Proof. split; reflexivity. Qed.
