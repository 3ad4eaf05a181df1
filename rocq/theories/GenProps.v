(** Text that a program writes for itself with [clr], [wr] and [run] (pass_one.cpp:336-425). *)
From Coq Require Import String.
From Verif Require Import Base BaseProofs State MonadProofs UtilsModel ErrorsModel StorageModel ParserModel PassTwoModel
  PreopModel PassOneModel DirectiveModel Knot OpcodeTables MainModel Programs Validate UtilsSpec UtilsProofs UtilsProps StorageProofs PassTwoSpec PassTwoProofs
  ParserSpec ParserProofs ParserProps StringProps InstrSpec InstrProps MatchSpec MatchProps AsmSpec AsmExpand AsmProofs AsmData AsmLine DirProps EvalProofs AsmRun MacroRun ExportModel ExportSpec AsmProps.

(** ** What the claim is about *)
(** The ten buffers, numbered from 0; [None] is a buffer nobody has written to. *)
Definition buffer (s : st) (i : Z) : option text := nth (Z.to_nat i) (s_bufs s) None.
Definition buffers_ok (s : st) : Prop := length (s_bufs s) = 10%nat /\ 0 <= s_curbuf s < 10.
(** [s'] is [s] with the text [v] in the chosen buffer, and nothing else changed but what the
    evaluator keeps for itself. *)
Record holds (v : option text) (s s' : st) : Prop := {
  h_chosen : buffer s' (s_curbuf s) = v;
  h_others : forall i, 0 <= i -> i <> s_curbuf s -> buffer s' i = buffer s i;
  h_rest : calm s (set_bufs (s_bufs s) s');
  h_count : length (s_bufs s') = length (s_bufs s) }.
(** One of the two instruction tables. *)
Definition standard (s : st) : Prop := s_opcodes s = opcode_list \/ s_opcodes s = opcode_list_ez80.

(** ** Buffers *)
Lemma put_same {A} (v d : A) : forall i l, (i < length l)%nat -> nth i (put_nth i v l) d = v.
Proof. induction i as [|i IH]; intros [|x l] H; cbn in *; try lia; auto. apply IH. lia. Qed.
Lemma put_other {A} (v d : A) : forall i j l, i <> j -> nth j (put_nth i v l) d = nth j l d.
Proof. induction i as [|i IH]; intros [|j] [|x l] H; cbn; try congruence; auto. Qed.
Lemma put_length {A} (v : A) : forall i l, length (put_nth i v l) = length l.
Proof. induction i as [|i IH]; intros [|x l]; cbn; auto. Qed.
Lemma put_put {A} (v w : A) : forall i l, put_nth i v (put_nth i w l) = put_nth i v l.
Proof. induction i as [|i IH]; intros [|x l]; cbn; auto. now rewrite IH. Qed.
Lemma get_is {A} (k : Z * option text -> M A) s : buffers_ok s -> bind get_buf k s = k (s_curbuf s, buffer s (s_curbuf s)) s.
Proof.
  intros (L & B). unfold get_buf. rewrite bind_assoc, bind_get, bind_assoc, bind_get. unfold MAX_BUFFERS.
  replace ((0 <=? s_curbuf s) && (s_curbuf s <? 10)) with true by (symmetry; apply andb_true_iff; lia). rewrite bind_ret. reflexivity.
Qed.
Definition stored (v : option text) (s : st) : st := set_bufs (put_nth (Z.to_nat (s_curbuf s)) v (s_bufs s)) s.
Lemma put_is {A} v (k : unit -> M A) s : bind (put_buf (s_curbuf s) v) k s = k tt (stored v s).
Proof. unfold put_buf. rewrite bind_assoc, bind_get, bind_upd. reflexivity. Qed.
Lemma stored_holds v s : buffers_ok s -> holds v s (stored v s).
Proof.
  intros (L & B). constructor.
  - apply put_same. lia.
  - intros i Hi N. apply put_other. lia.
  - left. now destruct s.
  - apply put_length.
Qed.

(** ** Finding the word *)
Definition gen_words : list text := [zs "buf"; zs "clr"; zs "wr"; zs "run"].
Lemma gen_no_opcode : forallb (fun w => forallb (fun o => negb (eqbl_ci w (op_name o))) (opcode_list ++ opcode_list_ez80)) gen_words = true.
Proof. vm_compute. reflexivity. Qed.
Lemma gen_letters : forallb (fun w => forallb isalpha w) gen_words = true.
Proof. reflexivity. Qed.
Lemma letters_ci a : forall b, eqbl_ci a b = true -> forallb isalpha b = true -> forallb isalpha a = true.
Proof.
  induction a as [|x a IH]; intros [|y b] E H; try discriminate; [reflexivity|]. cbn in E, H |- *. apply andb_true_iff in E as (E1 & E2), H as (H1 & H2).
  rewrite (IH b E2 H2), andb_true_r. unfold isalpha, isupper, islower, tolower, isupper in *.
  repeat match goal with |- context [?a <=? ?b] => destruct (Z.leb_spec a b) | H : context [?a <=? ?b] |- _ => destruct (Z.leb_spec a b) end; cbn in *; try reflexivity; try discriminate; try lia.
Qed.
Lemma alpha_name c : isalpha c = true -> ParserSpec.name_char c.
Proof. intros H. apply name_char_iff. unfold is_name_char, isalnum. rewrite H. reflexivity. Qed.
Lemma strncaseq_same : forall a b r r' w, eqbl_ci a b = true -> strncaseq (length a) (a ++ r) w = strncaseq (length b) (b ++ r') w.
Proof.
  induction a as [|x a IH]; intros [|y b] r r' w E; try discriminate; [reflexivity|]. cbn in E |- *. apply andb_true_iff in E as (E1 & E2). apply Z.eqb_eq in E1.
  destruct w as [|z w]; [reflexivity|]. rewrite E1, (IH b r r' w E2). reflexivity.
Qed.
(** Each word reaches its function. *)
Definition gen_case {A} (k : text) (a b c d : A) : A := if eqbl k (zs "buf") then a else if eqbl k (zs "clr") then b else if eqbl k (zs "wr") then c else d.
Lemma gen_dispatch C R word k r s : In k gen_words -> word_of word k -> standard s ->
  handle_opcode_or_macro C R (word ++ 40 :: r) s = gen_case k (fcreate_buf R (40 :: r)) (fcreate_clr (40 :: r)) (fcreate_wr R (40 :: r)) (fcreate_run C R ;;; step r) s.
Proof.
  intros Ik W St. pose proof gen_letters as Gl. rewrite forallb_forall in Gl. pose proof (letters_ci _ _ W (Gl _ Ik)) as La.
  assert (Nc : Forall ParserSpec.name_char word) by (apply Forall_forall; intros c Hc; apply alpha_name; rewrite forallb_forall in La; auto).
  unfold handle_opcode_or_macro. rewrite (skip_name_app word (40 :: r) Nc eq_refl), seg_app, !bind_get.
  assert (Nd : ~ In 46 word) by (intros I46; rewrite forallb_forall in La; specialize (La _ I46); discriminate).
  replace (if c_ez80 C then parse_suffix (s_adl s) word else (-1, length word)) with (-1, length word) by (destruct (c_ez80 C); [now rewrite c36_no_suffix|reflexivity]).
  assert (No : find_opcode (word ++ 40 :: r) (length word) (s_opcodes s) = []).
  { pose proof tables_names as T. rewrite forallb_app in T. apply andb_true_iff in T as (T1 & T2).
    pose proof gen_no_opcode as G. rewrite forallb_forall in G. specialize (G k Ik). rewrite forallb_app in G. apply andb_true_iff in G as (G1 & G2).
    assert (Q : forall l, forallb (fun o => negb (eqbl_ci k (op_name o))) l = true -> forallb (fun o => negb (eqbl_ci word (op_name o))) l = true).
    { intros l Hl. rewrite forallb_forall in *. intros o Io. specialize (Hl o Io). destruct (eqbl_ci word (op_name o)) eqn:E; [|reflexivity]. now rewrite (ci_trans word k (op_name o) W E) in Hl. }
    apply no_opcode; [reflexivity| |]; destruct St as [-> | ->]; auto. }
  rewrite No. cbn [hd0]. change (40 =? 40) with true. rewrite !andb_true_r, !(strncaseq_same word k (40 :: r) [] _ W).
  cbn [gen_words In] in Ik. destruct Ik as [<-|[<-|[<-|[<-|[]]]]]; reflexivity.
Qed.

(** ** [clr()] *)
Theorem c74_clr : forall C R s word rest, word_of word (zs "clr") -> standard s -> buffers_ok s ->
  exists s', handle_opcode_or_macro C R (word ++ zs "()" ++ rest) s = Ok rest s' /\ holds (Some []) s s'.
Proof.
  intros C R s word rest W St B. exists (stored (Some []) s). split; [|now apply stored_holds].
  change (zs "()" ++ rest) with (40 :: 41 :: rest). rewrite (gen_dispatch C R word (zs "clr")) by (auto; cbn; tauto).
  change (gen_case (zs "clr") _ _ _ _ s) with (fcreate_clr (40 :: 41 :: rest) s). unfold fcreate_clr. rewrite get_is by exact B. cbv beta iota. rewrite put_is. reflexivity.
Qed.

(** ** [wr(...)] *)
Lemma extract_datum_stop d rest more s : datum_ok (P := no_params) d -> (exists t, rest = 44 :: t) \/ stops_list rest ->
  extract_arg (datum_text d ++ rest) more s = Ok (Some (body d), if hd0 rest =? 44 then tl rest else rest, hd0 rest =? 44) s.
Proof.
  intros H Hr. destruct (datum_operand (Pm := no_params) d H) as (l & El & O). rewrite datum_parts, <- !app_assoc, <- El.
  now apply (extract_operand (mkoperand (before d) l (after_ d))).
Qed.
Lemma emit_stop C n ty rest : (20 <= n)%nat -> is_data ty = false -> stops_list rest -> forall l ts s f x more, (length l < f)%nat -> l <> [] -> open_only s ->
  Forall (datum_ok (P := no_params)) l -> Forall2 (says C s) l ts ->
  exists s', emit_loop C (knot C n) f ty x more (data_text l ++ rest) s = Ok (rest, List.concat ts) s' /\ calm s s'.
Proof.
  intros Hn Ty Ov. induction l as [|d l IH]; intros ts s f x more Hf Nl Op F Sy; [congruence|]. destruct f as [|f]; [cbn in Hf; lia|].
  inversion F as [|? ? Fd Fl]; subst. inversion Sy as [|? t ? ts' Sd Sl]; subst.
  set (next := match l with [] => rest | _ => 44 :: data_text l ++ rest end).
  assert (Et : data_text (d :: l) ++ rest = datum_text d ++ next).
  { unfold next. destruct l; cbn [data_text]; [reflexivity|]. now rewrite <- app_assoc. }
  assert (Nx : (exists t, next = 44 :: t) \/ stops_list next) by (unfold next; destruct l; [now right|left; eauto]).
  cbn [emit_loop]. rewrite Et, (bind_ok _ _ _ _ _ (extract_datum_stop d next more s Fd Nx)).
  destruct (emit_one C n s d t ty x Hn Ty Op Fd Sd) as (s1 & y & E1 & C1). rewrite (bind_ok _ _ _ _ _ E1).
  destruct l as [|d2 l].
  - unfold next. inversion Sl; subst. replace (hd0 rest =? 44) with false.
    2:{ destruct Ov as [->|(c & u & -> & H)]; [reflexivity|]. cbn. unfold line_ender in H. lia. }
    destruct f as [|f]; [cbn in Hf; lia|]. exists s1. split; [|exact C1]. cbn [emit_loop]. rewrite bind_assoc, (bind_ok _ _ _ _ _ (extract_none rest s1 Ov)). reflexivity.
  - unfold next. cbn [hd0 tl]. change (44 =? 44) with true. cbv iota.
    destruct (IH ts' s1 f y true) as (s2 & E2 & C2); auto.
    { cbn in *. lia. } { discriminate. } { now apply (open_calm s). }
    { revert Sl. clear -C1. induction 1; constructor; auto. now apply (says_calm C s). }
    exists s2. split; [|now apply (calm_trans s s1)]. rewrite (bind_ok _ _ _ _ _ E2). reflexivity.
Qed.
Lemma emit_written C n s l ts rest : (20 <= n)%nat -> stops_list rest -> l <> [] -> open_only s ->
  Forall (datum_ok (P := no_params)) l -> Forall2 (says C s) l ts ->
  exists s', f_emit (knot C (S n)) (data_text l ++ rest) E_FCREATE s = Ok (rest, List.concat ts) s' /\ calm s s'.
Proof.
  intros Hn Ov Nl Op F Sy. change (f_emit (knot C (S n))) with (parse_emit_string C (knot C n)).
  destruct (emit_stop C n E_FCREATE rest Hn eq_refl Ov l ts (set_emitlev (s_emitlev s + 1) s) (S (length (data_text l ++ rest))) None true) as (s' & E & Cm).
  { pose proof (data_length l F rest Nl). assert (length (skip_ws (data_text l ++ rest)) <= length (data_text l ++ rest))%nat; [|lia].
    generalize (data_text l ++ rest). clear. intros p. induction p as [|c p IH]; [cbn; lia|]. cbn [skip_ws]. match goal with |- context [if ?b then _ else _] => destruct b end; cbn [length] in *; lia. }
  { exact Nl. } { exact Op. } { exact F. } { exact Sy. }
  exists (set_emitlev (s_emitlev s) s'). split.
  - unfold parse_emit_string. rewrite bind_get, bind_upd. unfold bind at 1. rewrite E. rewrite bind_get, bind_upd.
    assert (Lv : s_emitlev s' = s_emitlev s + 1) by (destruct Cm as [->| ->]; reflexivity). rewrite Lv.
    replace (s_emitlev s + 1 - 1) with (s_emitlev s) by lia. unfold ret. now rewrite app_nil_r.
  - destruct Cm as [->| ->]; [left|right]; now destruct s.
Qed.
Definition so_far (b : option text) : text := match b with Some t => t | None => [] end.
Theorem c74_wr : forall C n s word l ts rest, (20 <= n)%nat -> word_of word (zs "wr") -> standard s -> buffers_ok s ->
  l <> [] -> open_only s -> Forall (datum_ok (P := no_params)) l -> Forall2 (says C s) l ts ->
  exists s', handle_opcode_or_macro C (knot C (S n)) (word ++ zs "(" ++ data_text l ++ zs ")" ++ rest) s = Ok rest s' /\
    holds (Some (so_far (buffer s (s_curbuf s)) ++ List.concat ts ++ [10])) s s'.
Proof.
  intros C n s word l ts rest Hn W St B Nl Op F Sy.
  change (zs "(" ++ data_text l ++ zs ")" ++ rest) with (40 :: data_text l ++ 41 :: rest). rewrite (gen_dispatch C _ word (zs "wr")) by (auto; cbn; tauto).
  change (gen_case (zs "wr") _ _ _ _ s) with (fcreate_wr (knot C (S n)) (40 :: data_text l ++ 41 :: rest) s). unfold fcreate_wr. rewrite get_is by exact B. cbv beta iota.
  rewrite put_is. cbn [tl]. set (b := match buffer s (s_curbuf s) with Some t => t | None => [] end).
  destruct (emit_written C n (stored (Some b) s) l ts (41 :: rest) Hn) as (s' & E & Cm); auto.
  { right. exists 41, rest. auto. }
  rewrite (bind_ok _ _ _ _ _ E). cbv beta iota. unfold step. rewrite bind_ret.
  assert (Ec : s_curbuf s = s_curbuf s') by (destruct Cm as [->| ->]; reflexivity). rewrite Ec, put_is. eexists. split; [reflexivity|].
  set (v := Some (b ++ List.concat ts ++ [10])). assert (Eb : s_bufs s' = put_nth (Z.to_nat (s_curbuf s)) (Some b) (s_bufs s)) by (destruct Cm as [->| ->]; reflexivity).
  assert (E2 : s_bufs (stored v s') = put_nth (Z.to_nat (s_curbuf s)) v (s_bufs s)) by (unfold stored; cbn; rewrite Eb, <- Ec; apply put_put).
  destruct B as (L & B). constructor.
  - unfold buffer. rewrite E2, <- Ec. apply put_same. lia.
  - intros i Hi N. unfold buffer. rewrite E2. apply put_other. lia.
  - destruct Cm as [->| ->]; [left|right]; now destruct s.
  - rewrite E2. apply put_length.
Qed.

(** ** [run()] *)
(** The pass over the text of the buffer starts from [s] under its own file name, with the
    problems it notes kept apart. *)
Definition entering (s : st) : st := set_sess (s_sess s + 1) (set_file (zs "Built-in fcreate") s).
(** After it the file, the line and the session are those of the call again. *)
Definition returning (s s2 : st) : st := set_sess (s_sess s) (set_line (s_line s) (set_file (s_file s) s2)).
Definition settled_errs (n : Z) (l : list err) : list err := unlead n (if 0 <? err_count n l then replay_up n l else l).
Lemma run_word C R s word t s2 rest : word_of word (zs "run") -> standard s -> buffers_ok s -> 1 <= s_sess s -> buffer s (s_curbuf s) = Some t ->
  f_pass R t (entering s) = Ok tt s2 -> buffers_ok s2 -> buffer s2 (s_curbuf s2) <> None -> s_sess s2 = s_sess s + 1 ->
  handle_opcode_or_macro C R (word ++ zs "()" ++ rest) s = Ok rest (stored None (set_errs (settled_errs (s_sess s + 1) (s_errs s2)) (returning s s2))).
Proof.
  intros W St B S1 Bt E B2 N2 S2.
  change (zs "()" ++ rest) with (40 :: 41 :: rest). rewrite (gen_dispatch C R word (zs "run")) by (auto; cbn; tauto).
  change (gen_case (zs "run") _ _ _ _ s) with ((fcreate_run C R ;;; step (41 :: rest)) s). unfold fcreate_run. rewrite bind_assoc, get_is by exact B. cbv beta iota. rewrite Bt.
  rewrite bind_assoc, bind_get, bind_assoc, bind_get, bind_assoc, bind_upd, bind_assoc, start_is. cbn [s_sess set_file].
  rewrite bind_assoc. change (set_sess (s_sess s + 1) (set_file (zs "Built-in fcreate") s)) with (entering s). rewrite (bind_ok _ _ _ _ _ E).
  rewrite bind_assoc, bind_upd, bind_assoc, bind_upd, bind_assoc. set (s3 := set_line (s_line s) (set_file (s_file s) s2)).
  assert (B3 : buffers_ok s3) by exact B2. rewrite (get_is _ s3 B3). cbv beta iota.
  assert (N3 : exists u, buffer s3 (s_curbuf s3) = Some u) by (change (buffer s3 (s_curbuf s3)) with (buffer s2 (s_curbuf s2)); destruct (buffer s2 (s_curbuf s2)); [eauto|congruence]).
  destruct N3 as (u & ->). rewrite bind_assoc, put_is, bind_assoc, bind_get, bind_assoc.
  change (s_errs (stored None s3)) with (s_errs s2).
  assert (Er : whenM (0 <? err_count (s_sess s + 1) (s_errs s2)) (replay_session C (s_sess s + 1) false) (stored None s3) =
    Ok tt (set_errs (if 0 <? err_count (s_sess s + 1) (s_errs s2) then replay_up (s_sess s + 1) (s_errs s2) else s_errs s2) (stored None s3))).
  { destruct (0 <? _); cbn [whenM]; [|unfold s3, stored; now destruct s2]. unfold replay_session. rewrite bind_get. replace (s_sess s + 1 =? 1) with false by lia. reflexivity. }
  rewrite (bind_ok _ _ _ _ _ Er). rewrite (bind_ok _ _ _ _ _ (end_nested (s_sess s + 1) _ ltac:(lia))).
  change (s_sess (set_errs _ (stored None s3))) with (s_sess s2). rewrite S2. replace (s_sess s + 1 - 1) with (s_sess s) by lia.
  unfold settled_errs, returning, stored, s3. reflexivity.
Qed.
Theorem c74_run : forall C R s word t s2 rest, word_of word (zs "run") -> standard s -> buffers_ok s -> 1 <= s_sess s -> buffer s (s_curbuf s) = Some t ->
  f_pass R t (entering s) = Ok tt s2 -> buffers_ok s2 -> buffer s2 (s_curbuf s2) <> None ->
  s_sess s2 = s_sess s + 1 -> Forall (fun e => e_sess e <= s_sess s) (s_errs s2) ->
  exists s', handle_opcode_or_macro C R (word ++ zs "()" ++ rest) s = Ok rest s' /\ holds None (returning s s2) s'.
Proof.
  intros C R s word t s2 rest W St B S1 Bt E B2 N2 S2 F2. rewrite (run_word C R s word t s2 rest) by assumption.
  destruct (above (s_sess s) (s_errs s2) F2) as (A1 & A2 & _). unfold settled_errs, err_count. rewrite A1. change (0 <? zlen (filter _ [])) with false. cbv iota. rewrite A2.
  replace (set_errs (s_errs s2) (returning s s2)) with (returning s s2) by (unfold returning; now destruct s2).
  eexists. split; [reflexivity|]. apply stored_holds. exact B2.
Qed.

(** ** Whole programs *)
(** A group of lines of a program that the program writes for itself: a line with [clr()], one
    line with [wr("...")] for each of them, and a line with [run()]. *)
Record gen := mkgen { g_indent : text; g_clr : text; g_wr : text; g_run : text; g_lines : list line }.
Inductive part := Plain (l : line) | Gen (g : gen).
Definition line_end : text := [10].
(** A line of a program without its line break. *)
Definition bare (l : line) : text := removelast (line_text l).
Definition gen_text (g : gen) : text :=
  g_indent g ++ g_clr g ++ zs "()" ++ line_end ++
  flat_map (fun l => g_indent g ++ g_wr g ++ zs "(" ++ lit_text (bare l) ++ zs ")" ++ line_end) (g_lines g) ++
  g_indent g ++ g_run g ++ zs "()" ++ line_end.
Definition part_text (x : part) : text := match x with Plain l => line_text l | Gen g => gen_text g end.
Definition parts_text (l : list part) : text := flat_map part_text l.
(** The program meant. *)
Definition part_lines (x : part) : list line := match x with Plain l => [l] | Gen g => g_lines g end.
Definition parts_lines (l : list part) : list line := flat_map part_lines l.
(** The words in any case; lines that end with a single line feed and fit in a string. *)
Definition gen_ok (g : gen) : Prop :=
  Forall blank (g_indent g) /\ word_of (g_clr g) (zs "clr") /\ word_of (g_wr g) (zs "wr") /\ word_of (g_run g) (zs "run") /\
  Forall (fun l => l_cr l = false /\ Forall (fun c => 0 < c < 256 /\ c <> 10 /\ c <> 13) (bare l) /\ zlen (lit_text (bare l)) <= 254) (g_lines g).
Definition part_ok (x : part) : Prop := match x with Plain _ => True | Gen g => gen_ok g end.

Lemma bare_text l : l_cr l = false -> line_text l = bare l ++ [10].
Proof. intros H. unfold bare. unfold line_text at 2. rewrite H, !app_assoc, removelast_last. unfold line_text. now rewrite H, !app_assoc. Qed.
Lemma word_head w k : In k gen_words -> word_of w k -> exists c u, w = c :: u /\ isalpha c = true.
Proof.
  intros Ik W. pose proof gen_letters as G. rewrite forallb_forall in G. pose proof (letters_ci _ _ W (G _ Ik)) as L.
  destruct w as [|c u]; [|exists c, u; split; [reflexivity|]; cbn in L; now apply andb_true_iff in L].
  cbn [gen_words In] in Ik. destruct Ik as [<-|[<-|[<-|[<-|[]]]]]; discriminate W.
Qed.
Lemma gen_line C m f ind w k r more s s1 : Forall blank ind -> In k gen_words -> word_of w k -> s_erroc s = false -> s_erroc s1 = false ->
  handle_opcode_or_macro C (knot C (S m)) (w ++ 40 :: r) s = Ok (10 :: more) s1 ->
  pass_loop (knot C (S (S m))) (S f) (ind ++ w ++ 40 :: r) s = pass_loop (knot C (S (S m))) f more (set_line (s_line s1 + 1) s1).
Proof.
  intros Bi Ik W Es Es1 H. destruct (word_head w k Ik W) as (c & u & Ew & Al).
  pose proof gen_letters as Gl. rewrite forallb_forall in Gl. pose proof (letters_ci _ _ W (Gl _ Ik)) as La.
  assert (Nc : Forall ParserSpec.name_char w) by (apply Forall_forall; intros d Hd; apply alpha_name; rewrite forallb_forall in La; auto).
  assert (Ne : is_eol (w ++ 40 :: r) = false /\ hd0 (w ++ 40 :: r) <> 92 /\ isspace c = false).
  { rewrite Ew. cbn [app is_eol hd0]. clear - Al. unfold isspace. unfold isalpha, isupper, islower in *.
    repeat match goal with |- context [?a <=? ?b] => destruct (Z.leb_spec a b) | H : context [?a <=? ?b] |- _ => destruct (Z.leb_spec a b) end; cbn in Al; try discriminate; split; try split; try lia. }
  destruct Ne as (Ne1 & Ne2 & Ne3).
  assert (L : forall g, line_sec C (knot C (S m)) (S g) (ind ++ w ++ 40 :: r) s = Ok (Some (10 :: more)) s1 /\ hd0 (ind ++ w ++ 40 :: r) <> 92).
  { intros g. destruct ind as [|b ind].
    - cbn [app]. split; [|exact Ne2]. rewrite line_sec_S, Ne1. replace (isalpha (hd0 (w ++ 40 :: r))) with true by (rewrite Ew; symmetry; exact Al). cbn [orb].
      rewrite (skip_name_app w (40 :: r) Nc eq_refl). cbn [hd0]. change (40 =? 40) with true. cbv iota. rewrite (bind_ok _ _ _ _ _ H). reflexivity.
    - pose proof (Forall_inv Bi) as Bb. destruct (blank_space b Bb) as (B1 & B2 & B3 & _). split; [|cbn; unfold blank in Bb; lia].
      rewrite line_sec_S. change ((b :: ind) ++ w ++ 40 :: r) with (b :: (ind ++ w ++ 40 :: r)). rewrite (blank_eol _ _ Bb). cbn [hd0]. rewrite B1, B2. replace (b =? 95) with false by lia. cbn [orb].
      replace (skip_ws (b :: ind ++ w ++ 40 :: r)) with (w ++ 40 :: r).
      2:{ change (b :: ind ++ w ++ 40 :: r) with ((b :: ind) ++ w ++ 40 :: r). rewrite skip_ws_app by exact Bi. rewrite Ew. cbn [app]. symmetry. apply skip_ws_nonblank. intros X. apply blank_space in X as (X & _). congruence. }
      replace (isalpha (hd0 (w ++ 40 :: r))) with true by (rewrite Ew; symmetry; exact Al). cbn [orb]. rewrite (bind_ok _ _ _ _ _ H). reflexivity. }
  cbn [pass_loop]. rewrite bind_get, Es. destruct (ind ++ w ++ 40 :: r) as [|y v] eqn:Et; [rewrite Ew in Et; destruct ind; discriminate|].
  change (f_line (knot C (S (S m)))) with (line_loop C (knot C (S m)) (S m)). destruct (L (length (y :: v))) as (L1 & L2).
  assert (E : line_loop C (knot C (S m)) (S m) (y :: v) s = Ok (Some (10 :: more)) s1).
  { cbn [line_loop]. replace (skip_char 92 (y :: v)) with (y :: v) by (unfold skip_char; cbn [hd0] in *; replace (y =? 92) with false by lia; reflexivity).
    rewrite (bind_ok _ _ _ _ _ L1). rewrite bind_get, Es1. reflexivity. }
  rewrite (bind_ok _ _ _ _ _ E). unfold add_line. rewrite bind_assoc, bind_get, bind_upd. reflexivity.
Qed.

(** The chosen buffer is the first, and the others are not written to. *)
Definition with_text (ds : list text) (v : option text) : Dirs := mkdirs ds (0, v :: repeat None 9).
Lemma holds_is v v0 s s' : holds v s s' -> s_curbuf s = 0 -> s_bufs s = v0 :: repeat None 9 ->
  s_curbuf s' = 0 /\ s_bufs s' = v :: repeat None 9 /\ (s' = set_bufs (v :: repeat None 9) s \/ s' = set_bufs (v :: repeat None 9) (set_depth 0 (set_fwd false s))).
Proof.
  intros [H1 H2 H3 H4] Cb Bu.
  assert (E : s_bufs s' = v :: repeat None 9).
  { apply (nth_ext _ _ None None); [rewrite H4, Bu; reflexivity|]. intros i Hi. rewrite H4, Bu in Hi. cbn in Hi. destruct i as [|i].
    - unfold buffer in H1. rewrite Cb in H1. exact H1.
    - specialize (H2 (Z.of_nat (S i)) ltac:(lia) ltac:(lia)). unfold buffer in H2. rewrite Nat2Z.id, Bu in H2. exact H2. }
  assert (X : s' = set_bufs (s_bufs s') (set_bufs (s_bufs s) s')) by now destruct s'.
  assert (Cc : s_curbuf s' = s_curbuf (set_bufs (s_bufs s) s')) by reflexivity.
  split; [rewrite Cc; destruct H3 as [->| ->]; exact Cb|]. split; [exact E|]. rewrite E in X. rewrite X. destruct H3 as [->| ->]; [left|right]; reflexivity.
Qed.

Section Generated.
Variable C : cfg.
Variable D : list (text * define).
Variable ops : list opcode.
Hypothesis normal : c_normal C = true.
Hypothesis no_counter : c_counter C = false.
Hypothesis D_names : forall w, ~ name_start (hd0 w) -> tfind (key C w) D = None.
Variable n2 : nat.
Hypothesis deep2 : (20 <= n2)%nat.
Hypothesis known_table : ops = opcode_list \/ ops = opcode_list_ez80.
Variable ds : list text.
Notation goodv v := (@good (eq 0) (with_text ds v) no_params [] no_consts C D ops).
Notation "'fills_'" := (fills C D ops n2).
Lemma good_pads v k t here out q s : goodv v k t here out q s -> s_curbuf s = 0 /\ s_bufs s = v :: repeat None 9 /\ standard s /\ buffers_ok s /\ s_sess s = k /\ s_erroc s = false /\ (1 <= k -> open_only s).
Proof.
  intros (K & A & _). pose proof (a_pads _ _ _ _ A) as P. change (pads (Dirs := with_text ds v)) with (0, v :: repeat None 9) in P. injection P as P1 P2.
  pose proof (k_sess _ _ _ _ _ _ K) as Ks. pose proof (k_errs _ _ _ _ _ _ K) as Ke. pose proof (k_ops _ _ _ _ _ _ K) as Ko.
  split; [exact P1|]. split; [exact P2|]. split; [unfold standard; now rewrite Ko|]. split; [split; [now rewrite P2|lia]|]. split; [exact Ks|]. split; [exact (k_erroc _ _ _ _ _ _ K)|].
  intros K1. split; [lia|]. rewrite Ks. eapply Forall_impl; [|exact (errs_all _ _ Ke)]. intros e (_ & H). lia.
Qed.
Lemma good_next v v' k t here out q s s' ln : goodv v k t here out q s -> holds v' s s' -> goodv v' k t here out q (set_line ln s').
Proof.
  intros G H. destruct (good_pads _ _ _ _ _ _ _ G) as (P1 & P2 & _). destruct (holds_is v' v s s' H P1 P2) as (Q1 & Q2 & Q3). destruct G as (K & A & So & Hh).
  split; [|split; [|now split]].
  - destruct Q3 as [->| ->]; destruct K; constructor; assumption.
  - destruct A as [A1 A2 A3 A4 A5 A6 A7]. constructor; try (destruct Q3 as [->| ->]; assumption).
    change (s_curbuf (set_line ln s')) with (s_curbuf s'). change (s_bufs (set_line ln s')) with (s_bufs s'). rewrite Q1, Q2. reflexivity.
Qed.
(** The lines with [wr]. *)
Lemma writes_run m k ind w more : (20 <= m)%nat -> 1 <= k -> Forall blank ind -> word_of w (zs "wr") ->
  forall p f v t here out q s, (length p < f)%nat -> goodv v k t here out q s ->
  Forall (fun l => l_cr l = false /\ Forall (fun c => 0 < c < 256 /\ c <> 10 /\ c <> 13) (bare l) /\ zlen (lit_text (bare l)) <= 254) p -> v <> None ->
  exists s', pass_loop (knot C (S (S m))) f (flat_map (fun l => ind ++ w ++ zs "(" ++ lit_text (bare l) ++ zs ")" ++ line_end) p ++ more) s =
    pass_loop (knot C (S (S m))) (f - length p) more s' /\ goodv (Some (so_far v ++ program_text p)) k t here out q s'.
Proof.
  intros Hm K1 Bi W. induction p as [|l p IH]; intros f v t here out q s Hf G F Nv.
  - exists s. split; [now rewrite Nat.sub_0_r|]. destruct v as [v|]; [|congruence]. cbn. now rewrite app_nil_r.
  - destruct f as [|f]; [cbn in Hf; lia|]. inversion F as [|? ? (F1 & F2 & F3) Fl]; subst. cbn [flat_map]. rewrite <- !app_assoc.
    set (r := flat_map _ p ++ more). destruct (good_pads _ _ _ _ _ _ _ G) as (P1 & P2 & St & Bo & Ks & Ke & Op).
    destruct (c74_wr C m s w [DStr [] (bare l) []] [bare l] (line_end ++ r) Hm W St Bo) as (s1 & E & Ho); [discriminate|auto| | |].
    { constructor; [|constructor]. split; [constructor|]. split; [constructor|]. split; [exact F2|]. change (zlen (@nil Z)) with 0. lia. }
    { constructor; [reflexivity|constructor]. }
    pose proof (good_next _ _ _ _ _ _ _ _ _ (s_line s1 + 1) G Ho) as G1.
    cbn [data_text datum_text] in E. rewrite app_nil_r in E. change ([] ++ lit_text (bare l)) with (lit_text (bare l)) in E.
    change (zs "(" ++ lit_text (bare l) ++ zs ")" ++ line_end ++ r) with (40 :: lit_text (bare l) ++ 41 :: 10 :: r) in *.
    rewrite (gen_line C m f ind w (zs "wr") _ r s s1 Bi ltac:(cbn; tauto) W Ke) by (try exact E; apply (k_erroc _ _ _ _ _ _ (proj1 G1))).
    cbn [List.concat] in G1. rewrite app_nil_r in G1. unfold buffer in G1. rewrite P1, P2 in G1. cbn [nth Z.to_nat] in G1.
    destruct (IH f _ t here out q _ ltac:(cbn in Hf; lia) G1 Fl ltac:(discriminate)) as (s2 & E2 & G2). exists s2. split; [exact E2|].
    cbn [program_text flat_map]. rewrite (bare_text l F1). cbn [so_far] in G2. rewrite <- !app_assoc in G2. rewrite <- app_assoc. exact G2.
Qed.
Local Existing Instance no_calls.
Local Existing Instance no_params.
Notation walk := (AsmLine.walk C D).
Notation output := (AsmSpec.output (c_wrap C) (c_ez80 C) (key C) (taken C D)).
Notation sections_ok := (AsmSpec.sections_ok (c_wrap C) (c_ez80 C) (key C) (taken C D) ops).
Lemma sections_cons l p : sections (l :: p) = (l_first l :: l_more l) ++ sections p.
Proof. reflexivity. Qed.
(** From [tx ++ more] the pass comes to [more]. *)
Definition leads (v v' : option text) m k T (tx : text) now here now' here' b : Prop := forall more s out q fuel,
  goodv v k now here out q s -> zlen out + zlen b <= 8000000 -> (length (tx ++ more) < fuel)%nat ->
  exists fuel' s' b0 q', (length more < fuel')%nat /\ pass_loop (knot C (S (S m))) fuel (tx ++ more) s = pass_loop (knot C (S (S m))) fuel' more s' /\
    goodv v' k now' here' (out ++ b0) (q ++ q') s' /\ fills C D ops n2 T (zlen out) q' b0 b.
Lemma leads_nil v m k T now here : leads v v m k T [] now here now here [].
Proof. intros more s out q fuel G Rm Fu. exists fuel, s, [], []. rewrite !app_nil_r. split; [exact Fu|]. split; [reflexivity|]. split; [exact G|apply fills_nil]. Qed.
Lemma leads_app v v1 v2 m k T t1 t2 now here n1 h1 now' here' b1 b2 : leads v v1 m k T t1 now here n1 h1 b1 -> leads v1 v2 m k T t2 n1 h1 now' here' b2 ->
  leads v v2 m k T (t1 ++ t2) now here now' here' (b1 ++ b2).
Proof.
  intros L1 L2 more s out q fuel G Rm Fu. rewrite <- app_assoc in *. rewrite zlen_app in Rm. pose proof (zlen_nonneg b1). pose proof (zlen_nonneg b2).
  destruct (L1 (t2 ++ more) s out q fuel G ltac:(lia) Fu) as (f1 & s1 & c1 & q1 & F1 & E1 & G1 & Fi1).
  assert (Lz : zlen c1 = zlen b1) by (destruct Fi1 as (L & _); unfold zlen; now rewrite L).
  destruct (L2 more s1 (out ++ c1) (q ++ q1) f1 G1 ltac:(rewrite zlen_app; lia) F1) as (f2 & s2 & c2 & q2 & F2 & E2 & G2 & Fi2).
  exists f2, s2, (c1 ++ c2), (q1 ++ q2). split; [exact F2|]. split; [congruence|]. rewrite <- !app_assoc in G2. split; [exact G2|]. apply (fills_app C D ops D_names n2 deep2); [exact Fi1|]. now rewrite zlen_app in Fi2.
Qed.
Lemma line_leads v m k T l now here now' here' b : (20 <= m)%nat -> 1 <= k -> line_ok l -> (length (l_more l) <= m)%nat ->
  sections_ok now here (l_first l :: l_more l) -> walk now here (l_first l :: l_more l) = Some (now', here') -> ext C now' T ->
  output T now here (l_first l :: l_more l) = Some b -> leads v v m k T (line_text l) now here now' here' b.
Proof.
  intros Hm K1 Lo Lm O W X Ob more s out q fuel G Rm Fu. destruct fuel as [|fuel]; [lia|].
  destruct (@line_run (eq 0) (with_text ds v) no_params [] no_consts no_calls C D ops normal no_counter D_names n2 deep2 known_table 0 (no_calls_lawful C) (no_calls_run C D ops n2) m k T l more (S m) now here s out q b now' here') as (s1 & c1 & q1 & P1 & G1 & F1); auto; try lia.
  cbn [pass_loop]. rewrite bind_get, (k_erroc _ _ _ _ _ _ (proj1 G)).
  assert (Tn : exists c u, line_text l ++ more = c :: u).
  { destruct (line_text l ++ more) as [|c u] eqn:E; [|eauto]. exfalso. unfold line_text in E. destruct (l_cr l); rewrite <- !app_assoc in E; apply app_eq_nil in E as (_ & E); apply app_eq_nil in E as (_ & E); apply app_eq_nil in E as (_ & E); discriminate. }
  destruct Tn as (c & u & Tn). assert (Lt : (length more < length (line_text l ++ more))%nat).
  { rewrite app_length. unfold line_text. rewrite !app_length. destruct (l_cr l); cbn [length]; lia. }
  rewrite Tn in *. change (f_line (knot C (S (S m)))) with (line_loop C (knot C (S m)) (S m)).
  rewrite (bind_ok _ _ _ _ _ P1). rewrite (tail_next C D D_names n2 deep2 l _ Lo). unfold add_line. rewrite bind_assoc, bind_get, bind_upd.
  exists fuel, (set_line (s_line s1 + 1) s1), c1, q1. split; [lia|]. split; [reflexivity|]. split; [|exact F1].
  destruct G1 as (Q1 & Q2 & Q3 & Q4). split; [destruct Q1; constructor; assumption|]. split; [destruct Q2; constructor; assumption|]. auto.
Qed.
Lemma walk_split l1 l2 now here now' here' : walk now here (l1 ++ l2) = Some (now', here') -> exists n1 h1, walk now here l1 = Some (n1, h1) /\ walk n1 h1 l2 = Some (now', here').
Proof.
  revert now here. induction l1 as [|x l1 IH]; intros now here W; [cbn in *; eauto|]. cbn [app AsmLine.walk] in *. destruct (after _ _ _ _ now here x) as [(a, h)|]; [|discriminate]. now apply IH.
Qed.
Lemma lines_lead v m k T : (20 <= m)%nat -> 1 <= k -> forall p now here now' here' b, Forall (fun l => line_ok l /\ (length (l_more l) <= m)%nat) p ->
  sections_ok now here (sections p) -> walk now here (sections p) = Some (now', here') -> ext C now' T ->
  output T now here (sections p) = Some b -> leads v v m k T (program_text p) now here now' here' b.
Proof.
  intros Hm K1. induction p as [|l p IH]; intros now here now' here' b F O W X Ob.
  - cbn in W, Ob. injection W as -> ->. injection Ob as <-. apply leads_nil.
  - inversion F as [|? ? (Lo & Lm) Fl]; subst. rewrite sections_cons in *. destruct (walk_split _ _ _ _ _ _ W) as (n1 & h1 & W1 & W2).
    destruct (walk_output _ _ _ _ _ _ _ _ _ _ W1 Ob) as (b1 & b2 & Ob1 & Ob2 & ->). destruct (walk_ok _ _ _ _ _ _ _ _ _ W1 O) as (O1 & O2).
    cbn [program_text flat_map]. apply leads_app with (v1 := v) (n1 := n1) (h1 := h1).
    + apply line_leads; auto. eapply ext_trans; [exact (walk_ext C D (no_calls_lawful C) _ _ _ _ _ W2)|exact X].
    + now apply IH.
Qed.

Lemma settled_ok k l : 1 <= k -> errs_ok (k + 1) l -> errs_ok k (settled_errs (k + 1) l).
Proof.
  intros K1 H. pose proof (errs_close k l K1 H) as Hc. unfold settled_errs, err_count. destruct l as [|e l]; [exact I|].
  destruct (e_sess e =? k + 1) eqn:Q.
  - replace (0 <? _) with true; [exact Hc|]. symmetry. cbn [lead]. rewrite Q. cbn [filter]. destruct H as ((A & _) & _). rewrite A. change (negb (262 =? 0)) with true. cbv iota.
    apply Z.ltb_lt. unfold zlen. cbn [length]. lia.
  - cbn [lead unlead replay_up] in *. rewrite Q in *. cbn [filter zlen length]. change (0 <? zlen []) with false. cbn [unlead]. rewrite Q. cbn [unlead] in Hc. rewrite Q in Hc. exact Hc.
Qed.
Lemma lit_length t : (length t + 2 <= length (lit_text t))%nat.
Proof.
  unfold lit_text. cbn [length]. rewrite app_length. cbn [length]. enough (length t <= length (flat_map lit_char t))%nat by lia.
  induction t as [|c t IH]; [cbn; lia|]. cbn [flat_map]. rewrite app_length. unfold lit_char at 1. destruct (memb c _); cbn [length] in *; lia.
Qed.
Lemma count_gen g : gen_ok g -> (length (g_lines g) + 2 <= length (gen_text g))%nat /\ (length (program_text (g_lines g)) <= length (gen_text g))%nat.
Proof.
  intros (_ & _ & _ & _ & F). unfold gen_text. rewrite !app_length. cbn [length zs line_end].
  enough (length (g_lines g) <= length (flat_map (fun l => g_indent g ++ g_wr g ++ zs "(" ++ lit_text (bare l) ++ zs ")" ++ line_end) (g_lines g)) /\
    length (program_text (g_lines g)) <= length (flat_map (fun l => g_indent g ++ g_wr g ++ zs "(" ++ lit_text (bare l) ++ zs ")" ++ line_end) (g_lines g)))%nat by lia.
  induction F as [|l p (F1 & _) F IH]; [cbn; lia|]. cbn [flat_map program_text length]. fold (program_text p). rewrite (bare_text l F1), !app_length. pose proof (lit_length (bare l)). cbn [length zs line_end] in *. lia.
Qed.
Lemma gen_leads m k T g now here now' here' b : (20 <= m)%nat -> 1 <= k -> gen_ok g -> Forall (fun l => line_ok l /\ (length (l_more l) <= m)%nat) (g_lines g) -> (length (gen_text g) + 20 <= m)%nat ->
  sections_ok now here (sections (g_lines g)) -> walk now here (sections (g_lines g)) = Some (now', here') -> ext C now' T ->
  output T now here (sections (g_lines g)) = Some b -> leads None None (S (S m)) k T (gen_text g) now here now' here' b.
Proof.
  intros Hm K1 Gk Fl Le O W X Ob more s out q fuel G Rm Fu. destruct (count_gen g Gk) as (Cg & Cp). destruct Gk as (Bi & Wc & Ww & Wr & Fg).
  rewrite app_length in Fu. unfold gen_text. rewrite <- !app_assoc. set (R := knot C (S (S (S (S m))))).
  set (more1 := flat_map _ (g_lines g) ++ _).
  (* clr *)
  destruct (good_pads _ _ _ _ _ _ _ G) as (P1 & P2 & St & Bo & Ks & Ke & Op). destruct fuel as [|fuel]; [lia|].
  destruct (c74_clr C (knot C (S (S (S m)))) s (g_clr g) (line_end ++ more1) Wc St Bo) as (s1 & E1 & Ho1).
  pose proof (good_next _ _ _ _ _ _ _ _ _ (s_line s1 + 1) G Ho1) as G1.
  change (zs "()" ++ line_end ++ more1) with (40 :: 41 :: 10 :: more1) in *. change (line_end ++ more1) with (10 :: more1) in E1.
  unfold R. rewrite (gen_line C (S (S m)) fuel (g_indent g) (g_clr g) (zs "clr") _ more1 s s1 Bi ltac:(cbn; tauto) Wc Ke (k_erroc _ _ _ _ _ _ (proj1 G1)) E1).
  (* wr *)
  unfold more1. clear E1. set (more2 := g_indent g ++ _).
  destruct (writes_run (S (S m)) k (g_indent g) (g_wr g) more2 ltac:(lia) K1 Bi Ww (g_lines g) fuel (Some []) _ _ _ _ _ ltac:(lia) G1 Fg ltac:(discriminate)) as (s2 & E2 & G2).
  rewrite E2. clear E2 G1 Ho1 s1. cbn [so_far app] in G2. set (tx := program_text (g_lines g)) in *.
  (* run *)
  destruct (fuel - length (g_lines g))%nat as [|f2] eqn:Ef; [lia|]. unfold more2.
  destruct (good_pads _ _ _ _ _ _ _ G2) as (Q1 & Q2 & St2 & Bo2 & Ks2 & Ke2 & Op2).
  set (s3 := if c_ez80 C then set_adl true (set_line 1 (entering s2)) else set_line 1 (entering s2)).
  assert (Ep : f_pass (knot C (S (S (S m)))) tx (entering s2) = pass_loop (knot C (S (S m))) (S (S m)) tx s3).
  { unfold s3. cbn [knot f_pass]. unfold run_first_pass. rewrite bind_upd. destruct (c_ez80 C); cbn [whenM]; [rewrite bind_upd|rewrite bind_ret]; reflexivity. }
  assert (G3 : goodv (Some tx) (k + 1) now here out q s3).
  { destruct G2 as (K & A & So & Hh). pose proof (k_adl _ _ _ _ _ _ K) as Ka. pose proof (errs_up _ _ (k_errs _ _ _ _ _ _ K)) as Ku. pose proof (k_sess _ _ _ _ _ _ K) as Kss.
    split; [|split; [|now split]].
    - unfold s3, entering. destruct (c_ez80 C) eqn:Ez; destruct K; constructor; try assumption; try (now rewrite Ez); cbn; now rewrite Kss.
    - unfold s3, entering. destruct (c_ez80 C); destruct A; constructor; assumption. }
  destruct (lines_lead (Some tx) m (k + 1) T Hm ltac:(lia) (g_lines g) now here now' here' b Fl O W X Ob [] s3 out q (S (S m)) G3 Rm) as (f4 & s4 & b0 & q' & Lf & E4 & G4 & Fi4).
  { rewrite app_nil_r. fold tx. lia. }
  rewrite app_nil_r in E4. fold tx in E4. destruct f4 as [|f4]; [cbn in Lf; lia|]. replace (pass_loop (knot C (S (S m))) (S f4) [] s4) with (Ok tt s4) in E4 by (cbn [pass_loop]; rewrite bind_get; reflexivity).
  destruct (good_pads _ _ _ _ _ _ _ G4) as (R1 & R2 & St4 & Bo4 & Ks4 & Ke4 & Op4).
  assert (Hr : buffer s2 (s_curbuf s2) = Some tx) by (unfold buffer; rewrite Q1, Q2; reflexivity).
  pose proof (run_word C (knot C (S (S (S m)))) s2 (g_run g) tx s4 (line_end ++ more) Wr St2 Bo2 ltac:(lia) Hr ltac:(rewrite Ep; exact E4) Bo4) as E5.
  specialize (E5 ltac:(unfold buffer; rewrite R1, R2; discriminate) ltac:(lia)).
  change (zs "()" ++ line_end ++ more) with (40 :: 41 :: 10 :: more) in *. change (line_end ++ more) with (10 :: more) in E5.
  set (s5 := stored None _) in E5.
  assert (G5 : forall ln, goodv None k now' here' (out ++ b0) (q ++ q') (set_line ln s5)).
  { intros ln. destruct G4 as (K & A & So & Hh). pose proof (settled_ok k _ K1 (k_errs _ _ _ _ _ _ K)) as Kx. rewrite <- Ks2 in Kx.
    split; [|split; [|now split]].
    - destruct K; constructor; try assumption. change (errs_ok k (settled_errs (s_sess s2 + 1) (s_errs s4))). rewrite <- Ks2 at 1. exact Kx.
    - destruct A as [A1 A2 A3 A4 A5 A6 A7]. constructor; try assumption.
      change (s_curbuf (set_line ln s5)) with (s_curbuf s4). change (s_bufs (set_line ln s5)) with (put_nth (Z.to_nat (s_curbuf s4)) None (s_bufs s4)). rewrite R1, R2. reflexivity. }
  rewrite (gen_line C (S (S m)) f2 (g_indent g) (g_run g) (zs "run") _ more s2 s5 Bi ltac:(cbn; tauto) Wr Ke2 (k_erroc _ _ _ _ _ _ (proj1 (G5 0))) E5).
  exists f2, (set_line (s_line s5 + 1) s5), b0, q'. split; [lia|]. split; [reflexivity|]. split; [apply G5|exact Fi4].
Qed.

Lemma parts_lead m k T : (20 <= m)%nat -> 1 <= k -> forall l now here now' here' b, Forall part_ok l -> Forall (fun l => line_ok l /\ (length (l_more l) <= m)%nat) (parts_lines l) ->
  (length (parts_text l) + 20 <= m)%nat -> sections_ok now here (sections (parts_lines l)) -> walk now here (sections (parts_lines l)) = Some (now', here') -> ext C now' T ->
  output T now here (sections (parts_lines l)) = Some b -> leads None None (S (S m)) k T (parts_text l) now here now' here' b.
Proof.
  intros Hm K1. induction l as [|x l IH]; intros now here now' here' b Fp Fl Le O W X Ob.
  - cbn in W, Ob. injection W as -> ->. injection Ob as <-. apply leads_nil.
  - inversion Fp as [|? ? Fx Fp']; subst. change (parts_lines (x :: l)) with (part_lines x ++ parts_lines l) in *. apply Forall_app in Fl as (Fl1 & Fl2).
    change (parts_text (x :: l)) with (part_text x ++ parts_text l) in *. rewrite app_length in Le.
    assert (Es : forall p r, sections (p ++ r) = sections p ++ sections r) by (intros p r; unfold sections; apply flat_map_app).
    rewrite Es in *. destruct (walk_split _ _ _ _ _ _ W) as (n1 & h1 & W1 & W2).
    destruct (walk_output _ _ _ _ _ _ _ _ _ _ W1 Ob) as (b1 & b2 & Ob1 & Ob2 & ->). destruct (walk_ok _ _ _ _ _ _ _ _ _ W1 O) as (O1 & O2).
    assert (X1 : ext C n1 T) by (eapply ext_trans; [exact (walk_ext C D (no_calls_lawful C) _ _ _ _ _ W2)|exact X]).
    apply leads_app with (v1 := None) (n1 := n1) (h1 := h1); [|apply IH; auto; lia].
    destruct x as [y|g]; cbn [part_lines part_text] in *.
    + inversion Fl1 as [|? ? (Lo & Lm) _]; subst. change (sections [y]) with ((l_first y :: l_more y) ++ []) in *. rewrite app_nil_r in *. apply line_leads; auto; lia.
    + apply gen_leads; auto. lia.
Qed.
End Generated.

Lemma word_nonzero w k : In k gen_words -> word_of w k -> Forall (fun c => c <> 0) w.
Proof.
  intros Ik W. pose proof gen_letters as G. rewrite forallb_forall in G. pose proof (letters_ci _ _ W (G _ Ik)) as L. rewrite forallb_forall in L.
  apply Forall_forall. intros c Hc ->. specialize (L 0 Hc). discriminate.
Qed.
Lemma gen_nonzero g : gen_ok g -> Forall (fun c => c <> 0) (gen_text g).
Proof.
  intros (Bi & Wc & Ww & Wr & F).
  assert (Zi : Forall (fun c => c <> 0) (g_indent g)) by (eapply Forall_impl; [|exact Bi]; unfold blank; lia).
  assert (Zz : forall t, forallb (fun c => negb (c =? 0)) t = true -> Forall (fun c => c <> 0) t) by (intros t H; rewrite forallb_forall in H; apply Forall_forall; intros c Hc; specialize (H c Hc); lia).
  unfold gen_text. repeat (apply Forall_app; split); try exact Zi; try (apply Zz; reflexivity).
  - now apply (word_nonzero _ (zs "clr")); [cbn; tauto|].
  - induction F as [|l p (_ & F2 & _) F IH]; [constructor|]. cbn [flat_map]. repeat (apply Forall_app; split); try exact Zi; try (apply Zz; reflexivity); try exact IH.
    + now apply (word_nonzero _ (zs "wr")); [cbn; tauto|].
    + unfold lit_text. constructor; [lia|]. apply Forall_app. split; [|constructor; [lia|constructor]]. apply Forall_forall. intros c Hc. apply in_flat_map in Hc as (d & Hd & Hc).
      rewrite Forall_forall in F2. specialize (F2 d Hd). unfold lit_char in Hc. destruct (memb d _); cbn [In] in Hc; intuition lia.
  - now apply (word_nonzero _ (zs "run")); [cbn; tauto|].
Qed.
Lemma parts_nonzero l : Forall part_ok l -> Forall (fun c => c <> 0) (program_text (parts_lines l)) -> Forall (fun c => c <> 0) (parts_text l).
Proof.
  induction 1 as [|x l Hx F IH]; intros H; [constructor|]. change (parts_lines (x :: l)) with (part_lines x ++ parts_lines l) in H. unfold program_text in *. rewrite flat_map_app in H. apply Forall_app in H as (H1 & H2).
  change (parts_text (x :: l)) with (part_text x ++ parts_text l). apply Forall_app. split; [|auto]. destruct x as [y|g]; [|now apply gen_nonzero]. cbn [part_lines flat_map part_text] in *. now rewrite app_nil_r in H1.
Qed.
#[local] Existing Instance no_params.
#[local] Existing Instance no_calls.
#[local] Existing Instance no_frame.
#[local] Existing Instance no_consts.
Lemma parts_first wraps ez80 fold tk ops l : Forall part_ok l -> parts_lines l <> [] -> sections_ok (P := no_params) (Ca := no_calls) wraps ez80 fold tk ops [] 0 (sections (parts_lines l)) ->
  exists c u, parts_text l = c :: u /\ c <> 239.
Proof.
  intros F N O. destruct l as [|x l]; [exfalso; apply N; reflexivity|]. inversion F as [|? ? Fx _]; subst. change (parts_text (x :: l)) with (part_text x ++ parts_text l). destruct x as [y|g]; cbn [part_text].
  - change (parts_lines (Plain y :: l)) with (y :: parts_lines l) in O. change (line_text y ++ parts_text l) with (line_text y ++ parts_text l).
    assert (T : exists c u, line_text y = c :: u).
    { destruct (line_text y) as [|c u] eqn:E; [|eauto]. exfalso. unfold line_text in E. destruct (l_cr y); apply app_eq_nil in E as (_ & E); apply app_eq_nil in E as (_ & E); apply app_eq_nil in E as (_ & E); discriminate. }
    destruct T as (c & u & T). destruct (first_byte _ _ _ _ _ _ _ _ _ O) as (c' & u' & E & Nc). cbn [program_text flat_map] in E. rewrite T in *. cbn [app] in *. injection E as -> _. eauto.
  - destruct Fx as (Bi & Wc & _). unfold gen_text. destruct (g_indent g) as [|b ind].
    + destruct (word_head _ (zs "clr") ltac:(cbn; tauto) Wc) as (c & u & -> & Al). cbn [app]. eexists _, _. split; [reflexivity|]. intros ->. discriminate.
    + cbn [app]. eexists _, _. split; [reflexivity|]. inversion Bi; subst. unfold blank in *. lia.
Qed.

(** A program of which some lines are written with [clr], [wr] and [run] is assembled as the
    program with those lines in place: the same bytes in the output file and the same symbols. *)
Theorem c74_generated : forall w ez80 case fuel input output x stem l b,
  hd0 input <> 45 -> hd0 output <> 45 -> w_files w input = Some (parts_text l) -> plain_name output x stem -> Forall part_ok l ->
  valid w ez80 case (parts_lines l) -> result w ez80 case (parts_lines l) = Some b -> zlen b <= 8000000 -> (length (parts_text l) + length (program_text (parts_lines l)) + 24 <= fuel)%nat ->
  exists t s, main fuel w (command ez80 case input output) = Done 0 [(output, exported_bytes x b)] (Some s) /\
    s_printed s = [] /\ symbols_of w ez80 case (parts_lines l) = Some t /\
    forall n, option_map l_value (tfind (fold_name case n) (s_labels s)) = lookup (fold_name case) t n.
Proof.
  intros w ez80 case fuel input output x stem l b Hi Ho Hf Hp Fp Va Re Rm Fu.
  set (a := mkargs true false false false ez80 case (Some input) (Some output) None [] None).
  set (C := mkconf w a). set (D := init_defines input).
  assert (Rn : exists T s, symbols_of w ez80 case (parts_lines l) = Some T /\ run_assembly C (knot C fuel) None output (init_state (c_ez80 C) input [] D) = Ok 0 s /\
    s_outfiles s = [(output, exported_bytes x b)] /\ s_printed s = [] /\ forall n, option_map l_value (tfind (key C n) (s_labels s)) = lookup (key C) T n).
  { destruct Va as (Pn & P0 & Pl & Po). unfold result, assemble in Re. fold (symbols_of w ez80 case (parts_lines l)) in Re. destruct (symbols_of w ez80 case (parts_lines l)) as [T|] eqn:Sy; [|discriminate].
    exists T. set (p := parts_lines l) in *. destruct (count_lines p) as (L1 & L2).
    assert (Dn : forall w0, ~ name_start (hd0 w0) -> tfind (key C w0) D = None) by exact (predefined_names case input).
    destruct fuel as [|[|[|[|m]]]]; try lia. assert (Hm : (20 <= m)%nat) by lia.
    assert (Known : instructions ez80 = opcode_list \/ instructions ez80 = opcode_list_ez80) by (destruct ez80; auto).
    destruct (run_gen C eq_refl eq_refl eq_refl D [] input None output (S (S (S (S m)))) (parts_text l) T b x stem) as (s & E).
    - now apply parts_nonzero.
    - eapply parts_first; eassumption.
    - exact Rm.
    - lia.
    - exact Hp.
    - exact Hf.
    - intros s3 G.
      unfold symbols_of in Sy. fold p in Sy. rewrite <- (app_nil_r (sections p)) in Sy. destruct (walk_symbols C D _ _ _ _ _ Sy) as (n1 & h1 & W & Sy1). cbn in Sy1. injection Sy1 as ->.
      destruct (parts_lead C D (instructions ez80) eq_refl eq_refl Dn (S (S (S (S m)))) ltac:(lia) Known [c_cwd C] m 1 T Hm ltac:(lia) l [] 0 T h1 b Fp) with (more := @nil Z) (s := s3) (out := @nil Z) (q := @nil pexpr) (fuel := S (S (S (S m)))) as (f4 & s4 & b0 & q & Lf & E4 & G4 & F4); auto; try lia.
      + rewrite Forall_forall in *. intros y Hy. split; [now apply Pl|]. specialize (L2 y Hy). cbn beta in L2. lia.
      + intros n v H. exact H.
      + rewrite app_nil_r. lia.
      + exists D, no_params, no_consts, (eq 0), h1, s4, b0, q. rewrite app_nil_r in E4. split; [|split; [exact G4|exact F4]]. rewrite E4. destruct f4; [cbn in Lf; lia|]. cbn [pass_loop]. rewrite bind_get. reflexivity.
    - exists s. split; [reflexivity|exact E]. }
  destruct Rn as (T & s & Sy & P & Of & Pr & Lb).
  exists T, s. split; [|split; [exact Pr|split; [exact Sy|exact Lb]]].
  unfold main. assert (Ne : exists c l, command ez80 case input output = c :: l) by (destruct ez80, case; cbn; eauto). destruct Ne as (c & r & Ne). rewrite Ne. rewrite <- Ne. rewrite (read_command w ez80 case input output Hi Ho).
  change (match run_assembly C (knot C fuel) None output (init_state ez80 input [] (init_defines input)) with
        | Ok c s => Done c (rev (s_outfiles s)) (Some s)
        | Exit c s => Done c (rev (s_outfiles s)) (Some s)
        | Undef u => Crash u
        | NoFuel => OutOfFuel
        end = Done 0 [(output, exported_bytes x b)] (Some s)).
  change (run_assembly C (knot C fuel) None output (init_state ez80 input [] (init_defines input)) = Ok 0 s) in P. rewrite P, Of. reflexivity.
Qed.

(** ** [buf(...)] *)
Lemma piece_paren q : forall top, piece_ok [] top q -> piece_ok [41] top q.
Proof.
  induction q as [c|l|c|c|l IH] using piece_ind'; intros top H; inversion H; subst; constructor; auto.
  - intros T. specialize (H3 T). split; [|tauto]. cbn. intros [<-|[]]. apply H1. unfold bracket. lia.
  - rewrite Forall_forall in *. auto.
Qed.
Lemma read_paren w rest s : written_ok (P := no_params) w -> read_expr (wr w ++ 41 :: rest) (zs ")") s = Ok (mkrx true (41 :: rest) (w_text w) false) s.
Proof.
  intros W. destruct (written_operand (Pm := no_params) [] w (or_introl eq_refl) W) as (l & El & O). unfold read_expr, read_expr'.
  pose proof (read_operand_gen [41] (mkoperand (w_before w) l (w_after w)) (41 :: rest)) as G. unfold operand_text in G. cbn [o_before o_body o_after] in G. rewrite El in G.
  unfold wr. rewrite <- !app_assoc. change (zs ")") with [41]. rewrite G; [reflexivity| | | |].
  - cbn. lia.
  - right. cbn. intros c [<-|[]]. unfold blank. lia.
  - destruct O as (O1 & O2 & O3 & O4). split; [exact O1|]. split; [exact O2|]. split; [|exact O4]. eapply Forall_impl; [|exact O3]. intros q. apply piece_paren.
  - right. right. exists 41, rest. auto.
Qed.
(** [buf(e)] chooses the buffer numbered by the value of [e]. *)
Theorem c74_buf : forall C n s word w v rest, (20 <= n)%nat -> word_of word (zs "buf") -> standard s -> stands_for C s w v ->
  handle_opcode_or_macro C (knot C n) (word ++ zs "(" ++ wr w ++ zs ")" ++ rest) s = Ok rest (set_curbuf v (set_depth 0 (set_fwd false s))).
Proof.
  intros C n s word w v rest Hn W St S0. change (zs "(" ++ wr w ++ zs ")" ++ rest) with (40 :: wr w ++ 41 :: rest).
  rewrite (gen_dispatch C _ word (zs "buf")) by (auto; cbn; tauto). change (gen_case (zs "buf") _ _ _ _ s) with (fcreate_buf (knot C n) (40 :: wr w ++ 41 :: rest) s). unfold fcreate_buf. cbn [tl].
  rewrite (bind_ok _ _ _ _ _ (read_paren w rest s (proj1 S0))). cbn [rx_word rx_ptr]. rewrite (bind_ok _ _ _ _ _ (parse_stands C n s w v Hn S0)). rewrite bind_upd. reflexivity.
Qed.
(** The number is not checked: with a number that is not one of the ten, [clr()] writes outside
    the table of buffers. *)
Theorem c74_number_refuted : forall C R s word rest, word_of word (zs "clr") -> standard s -> ~ 0 <= s_curbuf s < 10 ->
  handle_opcode_or_macro C R (word ++ zs "()" ++ rest) s = Undef UB_oob.
Proof.
  intros C R s word rest W St N. change (zs "()" ++ rest) with (40 :: 41 :: rest). rewrite (gen_dispatch C R word (zs "clr")) by (auto; cbn; tauto).
  change (gen_case (zs "clr") _ _ _ _ s) with (fcreate_clr (40 :: 41 :: rest) s). unfold fcreate_clr, get_buf. rewrite bind_assoc, bind_get, bind_assoc, bind_get. unfold MAX_BUFFERS.
  replace ((0 <=? s_curbuf s) && (s_curbuf s <? 10)) with false by (symmetry; apply andb_false_iff; lia). reflexivity.
Qed.
(** Without a text to assemble, [run()] notes an error. *)
Theorem c74_nothing : forall C R s word rest, word_of word (zs "run") -> standard s -> buffers_ok s -> buffer s (s_curbuf s) = None ->
  handle_opcode_or_macro C R (word ++ zs "()" ++ rest) s = Ok rest (noted false SPASM_ERR_FCREATE_NOFILE s).
Proof.
  intros C R s word rest W St B N. change (zs "()" ++ rest) with (40 :: 41 :: rest). rewrite (gen_dispatch C R word (zs "run")) by (auto; cbn; tauto).
  change (gen_case (zs "run") _ _ _ _ s) with ((fcreate_run C R ;;; step (41 :: rest)) s). unfold fcreate_run. rewrite bind_assoc, get_is by exact B. cbv beta iota. rewrite N.
  unfold set_error, set_problem. rewrite bind_assoc, bind_get, bind_assoc, bind_get, bind_assoc, bind_get, bind_assoc, bind_get. rewrite bind_upd. reflexivity.
Qed.

(** ** Examples *)
Definition ex_parts : list part := [Plain (nth 0 ex_program (ex_line (mksection None false [] SNone) [] None)); Gen (mkgen [9] (zs "clr") (zs "Wr") (zs "run") (firstn 3 (skipn 1 ex_program)));
  Gen (mkgen [] (zs "CLR") (zs "wr") (zs "Run") (firstn 1 (skipn 4 ex_program))); Plain (nth 5 ex_program (ex_line (mksection None false [] SNone) [] None))].
Definition q1 : text := [34].
Example ex_parts_text : parts_text ex_parts =
  zs " .org $9D95" ++ [10; 9] ++ zs "clr()" ++ [10; 9] ++ zs "Wr(" ++ q1 ++ zs "Start: ld a,count" ++ q1 ++ zs ")" ++ [10; 9] ++
  zs "Wr(" ++ q1 ++ zs " jr nz,done \\ .db 1,\" ++ q1 ++ zs "hi\" ++ q1 ++ zs ", done-start ; data" ++ q1 ++ zs ")" ++ [10; 9] ++
  zs "Wr(" ++ q1 ++ zs "count .equ 5" ++ q1 ++ zs ")" ++ [10; 9] ++ zs "run()" ++ [10] ++
  zs "CLR()" ++ [10] ++ zs "wr(" ++ q1 ++ zs "done: ret" ++ q1 ++ zs ")" ++ [10] ++ zs "Run()" ++ [10] ++ zs ".block 2" ++ [10].
Proof. reflexivity. Qed.
Definition gen_world : world := mkworld (fun n => if eqbl n (zs "prog.asm") then Some (parts_text ex_parts) else None) (fun _ => 0) (zs "/src") (fun _ => []) false.
Lemma ex_parts_ok : Forall part_ok ex_parts.
Proof.
  assert (Lk : forall l, forallb (fun l => negb (l_cr l) && forallb (fun c => (0 <? c) && (c <? 256) && negb (c =? 10) && negb (c =? 13)) (bare l) && (zlen (lit_text (bare l)) <=? 254)) l = true ->
    Forall (fun l => l_cr l = false /\ Forall (fun c => 0 < c < 256 /\ c <> 10 /\ c <> 13) (bare l) /\ zlen (lit_text (bare l)) <= 254) l).
  { intros l H. rewrite forallb_forall in H. apply Forall_forall. intros y Hy. specialize (H y Hy). apply andb_true_iff in H as (H & H3). apply andb_true_iff in H as (H1 & H2).
    split; [now destruct (l_cr y)|]. split; [|lia]. rewrite forallb_forall in H2. apply Forall_forall. intros c Hc. specialize (H2 c Hc). lia. }
  constructor; [exact I|]. constructor; [|constructor; [|constructor; [exact I|constructor]]].
  - split; [constructor; [unfold blank; cbn; lia|constructor]|]. repeat (split; [reflexivity|]). apply Lk. vm_compute. reflexivity.
  - split; [constructor|]. repeat (split; [reflexivity|]). apply Lk. vm_compute. reflexivity.
Qed.
Example c74_case : exists s, main 700 gen_world [zs "prog.asm"; zs "prog.bin"] = Done 0 [(zs "prog.bin", ex_bytes)] (Some s) /\ s_printed s = [].
Proof.
  assert (H1 : hd0 (zs "prog.asm") <> 45) by (vm_compute; discriminate).
  assert (H2 : hd0 (zs "prog.bin") <> 45) by (vm_compute; discriminate).
  assert (H3 : w_files gen_world (zs "prog.asm") = Some (parts_text ex_parts)) by (vm_compute; reflexivity).
  assert (H4 : zlen ex_bytes <= 8000000) by (vm_compute; discriminate).
  assert (P : plain_name (zs "prog.bin") ExBinary (zs "prog")).
  { right. exists (zs "bin"). split; [reflexivity|]. split; [discriminate|]. split; [vm_compute; intuition discriminate|]. split; [reflexivity|now left]. }
  assert (Ep : parts_lines ex_parts = ex_program) by reflexivity.
  pose proof (c74_generated gen_world false false 700 _ _ _ _ ex_parts ex_bytes H1 H2 H3 P ex_parts_ok) as G. rewrite Ep in G.
  destruct (G (ex_valid gen_world) (ex_result gen_world) H4) as (t & s & E & Pr & _); [apply Nat.leb_le; vm_compute; reflexivity|]. exists s. split; [exact E|exact Pr].
Qed.
(** Numbers may be part of the text; a buffer may be filled in several places; each is separate. *)
Example c74_more :
  Validate.assemble 100 [] (prog ["n .equ 5"; " clr()"; " wr("" .db "",n*2)"; " buf(3)"; " clr()"; " wr("" .db 7"")"; " run()"; " buf(0)"; " wr("" .db 9"")"; " run()"; " .db 1"]%string) = Some (0, Some [7; 10; 9; 1], []) /\
  Validate.assemble 100 [] (prog [" clr()"; " wr("" .db 1"")"; " run()"; " run()"]%string) = Some (3, None, [SPASM_ERR_FCREATE_NOFILE]) /\
  Validate.assemble 100 [] (prog [" buf(10)"; " clr()"]%string) = None.
Proof. vm_compute. auto. Qed.
(** The words are found by the letters written, not by the whole word: a macro whose name begins
    one of them cannot be called with arguments. *)
Theorem c74_names_refuted :
  Validate.assemble 100 [] (prog ["#macro w(x)"; " .db x"; "#endmacro"; " w(5)"; " .db 1"]%string) = Some (0, Some [1], []).
Proof. vm_compute. auto. Qed.
Print Assumptions c74_clr.
Print Assumptions c74_wr.
Print Assumptions c74_run.
Print Assumptions c74_buf.
Print Assumptions c74_generated.
Print Assumptions c74_nothing.
Print Assumptions c74_number_refuted.
Print Assumptions c74_names_refuted.
