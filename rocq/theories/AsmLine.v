(** The assembler follows the reference assembler of AsmSpec: sections, lines and passes. *)
From Verif Require Import Base BaseProofs State MonadProofs UtilsModel ErrorsModel StorageModel ParserModel PassTwoModel
  PreopModel PassOneModel DirectiveModel Knot OpcodeTables UtilsSpec UtilsProofs StorageProofs PassTwoSpec PassTwoProofs
  ParserSpec ParserProofs ParserProps StringProps InstrSpec InstrProps MatchSpec MatchProps AsmSpec AsmExpand AsmProofs AsmData AsmInstr.

Lemma fuel_data {Pm : Params} l rest : l <> [] -> Forall datum_ok l -> (length l <= length (skip_ws (data_text l ++ rest)))%nat.
Proof.
  destruct l as [|d l]; [congruence|]. intros _ F. inversion F as [|? ? O _]; subst.
  assert (B : exists c t, body d = c :: t /\ ~ blank c).
  { destruct d as [w|x u y]; cbn [body].
    - destruct O as (_ & W & _). destruct (proj2 expression_shape _ _ W) as (_ & B & _). now apply begins_head.
    - eexists _, _. split; [reflexivity|]. unfold blank. lia. }
  destruct B as (c & t & B & Nb). assert (Bb : Forall blank (before d)) by (destruct d; cbn in *; [apply O|apply O]).
  destruct l as [|d2 l].
  - cbn [data_text]. rewrite datum_parts, <- !app_assoc, skip_ws_app, B by exact Bb. cbn [app]. rewrite skip_ws_nonblank by exact Nb. cbn [length]. lia.
  - change (data_text (d :: d2 :: l)) with (datum_text d ++ 44 :: data_text (d2 :: l)). pose proof (data_text_length (d2 :: l)) as L.
    rewrite datum_parts, <- !app_assoc, skip_ws_app, B by exact Bb. cbn [app]. rewrite skip_ws_nonblank by exact Nb. cbn [length] in *. rewrite !app_length. cbn [length app]. rewrite app_length. lia.
Qed.
Lemma data_oks {Pm : Params} C taken here now width l : data_ok (c_wrap C) (key C) taken here now width l -> Forall datum_ok l.
Proof. revert here. induction l as [|d l IH]; intros here H; constructor; destruct d; cbn [data_ok] in H; try tauto; eapply IH; apply H. Qed.
Lemma seg_word w gap r : Forall (fun c => isspace c = false) w -> gap_ok gap -> seg (w ++ gap ++ r) (skip_nonspace (w ++ gap ++ r)) = w.
Proof. intros F G. rewrite (skip_word w gap r F G). apply seg_app. Qed.
Lemma names_alpha : forallb (fun o => isalpha (hd0 (op_name o))) (opcode_list ++ opcode_list_ez80) = true.
Proof. vm_compute. reflexivity. Qed.
Lemma blank_space c : blank c -> isspace c = true /\ isalpha c = false /\ c <> 95 /\ is_name_char c = false.
Proof. unfold blank. intros [->|[->|[->| ->]]]; now repeat split. Qed.
Lemma blank_eol c p : blank c -> is_eol (c :: p) = false.
Proof. unfold blank. intros [->|[->|[->| ->]]]; reflexivity. Qed.

Lemma line_sec_S C R f p : line_sec C R (S f) p =
  if is_eol p then ret (Some p)
  else if isalpha (hd0 p) || (hd0 p =? 95) then
    if hd0 (skip_to_name_end p) =? 40 then (q <- handle_opcode_or_macro C R p ;; ret (Some q))
    else
      (if eqbl (seg p (skip_to_name_end p)) (zs "_") then add_reusable
       else pc <- get s_pc ;; l <- add_label C (seg p (skip_to_name_end p)) (wrap32 pc) ;; upd (set_last_label l)) ;;;
      line_sec C R f (skip_char 58 (skip_to_name_end p))
  else if isspace (hd0 p) then
    if isalpha (hd0 (skip_ws p)) || (hd0 (skip_ws p) =? 95) then (q <- handle_opcode_or_macro C R (skip_ws p) ;; ret (Some q)) else line_sec C R f (skip_ws p)
  else if hd0 p =? 46 then handle_directive C R (tl p)
  else if hd0 p =? 35 then f_preop R (tl p)
  else if hd0 p =? 61 then (q <- equate R (tl p) ;; ret (Some q))
  else set_error SPASM_ERR_SYNTAX ;;; ret (Some p).
Proof. reflexivity. Qed.
Section Lines.
Context {lv : Level} {dr : Dirs} {Pm : Params} {fr : Frame} {Cs : Consts} {Ca : Calls}.
Variable C : cfg.
Variable D : list (text * define).
Variable ops : list opcode.
Hypothesis normal : c_normal C = true.
Hypothesis no_counter : c_counter C = false.
Hypothesis D_names : forall w, ~ name_start (hd0 w) -> tfind (key C w) D = None.
Variable n2 : nat.
Hypothesis deep2 : (20 <= n2)%nat.
Hypothesis known_table : ops = opcode_list \/ ops = opcode_list_ez80.
Notation core := (core C D ops).
Notation fills := (fills C D ops n2).
Notation taken := (taken C D).
Notation lookup := (lookup (key C)).
Notation val := (val (c_wrap C) (key C)).
Notation runs := (runs C D ops n2).
Notation runs1 := (runs1 C D ops).
Notation fills_nil := (fills_nil C D ops n2).
Notation fills_app := (fills_app C D ops D_names n2 deep2).
Notation stmt_ok := (stmt_ok (c_wrap C) (c_ez80 C) (key C) taken ops).
Notation with_label := (with_label (key C) taken).
Notation after := (after (c_wrap C) (c_ez80 C) (key C) taken).
Notation emits := (emits (c_wrap C) (c_ez80 C) (key C) taken).
Notation section_ok := (section_ok (c_wrap C) (c_ez80 C) (key C) taken ops).
Notation data_bytes := (data_bytes (c_wrap C) (c_ez80 C) (key C)).
Notation fill_args := (fill_args (c_wrap C) (key C)).
Ltac core_tac := match goal with H : core _ _ _ |- core _ _ _ => destruct H; constructor; assumption end.
Ltac at_tac := match goal with H : at_ _ _ _ _ |- at_ _ _ _ _ => destruct H; constructor; assumption end.

(** The whole situation between sections. *)
Definition good (k : Z) (now : table) (here : Z) (out : list Z) (q : list pexpr) (s : st) : Prop :=
  core k now s /\ at_ here out q s /\ sound C now /\ 0 <= here <= 999999999.
Definition goes (k : Z) (T now' : table) (here' : Z) (out : list Z) (q : list pexpr) {A} (r : res A) (a : A) (b : list Z) : Prop :=
  exists s' b0 q', r = Ok a s' /\ good k now' here' (out ++ b0) (q ++ q') s' /\ fills T (zlen out) q' b0 b.
(** What is asked of calls: they keep the symbols, and they run as they should. *)
Record calls_lawful : Prop := {
  law_ext : forall t here y t' here', call_after params t here y = Some (t', here') -> ext C t t';
  law_text : forall t here y, call_ok params t here y -> name_ok (y_name y) /\ Forall blank (y_after y);
  law_sound : forall t here y t' here', call_ok params t here y -> call_after params t here y = Some (t', here') -> sound C t -> 0 <= here <= 999999999 -> sound C t';
  law_pext : forall t here z t' here', paste_after params t here z = Some (t', here') -> ext C t t';
  law_psound : forall t here z t' here', paste_ok params t here z -> paste_after params t here z = Some (t', here') -> sound C t -> 0 <= here <= 999999999 -> sound C t' }.
Variable enough : nat.
Definition macros_run : Prop := forall m k T t here y b t' here' rest s out q, (20 <= m)%nat -> (enough <= m)%nat -> 1 <= k ->
  good k t here out q s -> call_ok params t here y -> call_after params t here y = Some (t', here') -> small here' = true -> ext C t' T ->
  call_bytes params T t here y = Some b -> zlen out + zlen b <= 8000000 -> line_over rest ->
  goes k T t' here' out q (handle_opcode_or_macro C (knot C (S m)) (call_text y ++ y_after y ++ rest) s) (y_after y ++ rest) b.
Definition pastes_run : Prop := forall m k T t here z b t' here' rest s out q, (20 <= m)%nat -> (enough <= m)%nat -> 1 <= k ->
  good k t here out q s -> paste_ok params t here z -> paste_after params t here z = Some (t', here') -> small here' = true -> ext C t' T ->
  paste_bytes params T t here z = Some b -> zlen out + zlen b <= 8000000 -> line_over rest ->
  goes k T t' here' out q (handle_preop C (knot C m) (paste_text z ++ rest) s) (Some rest) b.
Definition calls_run : Prop := macros_run /\ pastes_run.
Hypothesis lawful : calls_lawful.
Hypothesis run_calls : calls_run.

Definition moves (now t : table) (here : Z) (lab : option text) (x : stmt) : option (table * Z) :=
  match x with
  | SNone => Some (t, here)
  | SInstr _ sfx _ i _ _ _ _ => Some (t, here + instr_size (c_ez80 C) sfx i)
  | SData _ width _ l => Some (t, here + data_size width l)
  | SFill _ _ n v => match fill_args t here n v with Some (n, _) => Some (t, here + n) | None => None end
  | SOrg _ _ e => match val here t (w_expr e) with Some a => Some (t, a) | None => None end
  | SEqu _ _ e | SSet e =>
    match lab, val here t (w_expr e) with
    | Some n, Some v => if small v then Some ((n, v) :: now, here) else None
    | _, _ => None
    end
  | SCall y => call_after params t here y
  | SPaste z => paste_after params t here z
  end.
Definition gives_bytes (T t : table) (here : Z) (x : stmt) : option (list Z) :=
  match x with
  | SInstr _ sfx _ i _ _ _ es => instr_bytes (c_wrap C) (c_ez80 C) (key C) T here sfx i es
  | SData _ width _ l => data_bytes T here width l
  | SFill _ _ n v => match fill_args t here n v with Some (n, v) => Some (repeat (v mod 256) (Z.to_nat n)) | None => None end
  | SCall y => call_bytes params T t here y
  | SPaste z => paste_bytes params T t here z
  | _ => Some []
  end.
(** What a statement leaves of its text. *)
Definition trail (x : stmt) : text := match x with SCall y => y_after y | _ => [] end.
Lemma after_moves now here x now' here' : after now here x = Some (now', here') ->
  exists t, with_label now here x = Some t /\ moves now t here (x_label x) (x_stmt x) = Some (now', here') /\ small here' = true.
Proof.
  assert (E : after now here x = match with_label now here x with
    | Some t => match moves now t here (x_label x) (x_stmt x) with Some (a, b) => if small b then Some (a, b) else None | None => None end | None => None end) by reflexivity.
  rewrite E. destruct (with_label now here x) as [t|]; [|discriminate].
  destruct (moves now t here _ _) as [(a, b)|] eqn:Em; [|discriminate]. destruct (small b) eqn:S; [|discriminate]. intros G. injection G as <- <-. exists t. auto.
Qed.
Lemma emits_bytes T now here x t : with_label now here x = Some t -> emits T now here x = gives_bytes T t here (x_stmt x).
Proof. intros E. unfold AsmSpec.emits, gives_bytes. rewrite E. reflexivity. Qed.

(** ** Calls *)
Lemma call_runs m k t t' T here here' y b rest s out q : (20 <= m)%nat -> (enough <= m)%nat -> 1 <= k ->
  core k t s -> at_ here out q s -> sound C t -> ext C t' T -> 0 <= here <= 999999999 -> call_ok params t here y ->
  call_after params t here y = Some (t', here') -> small here' = true ->
  call_bytes params T t here y = Some b -> zlen out + zlen b <= 8000000 -> line_over rest ->
  runs k t' T here' out q ((r <- handle_opcode_or_macro C (knot C (S m)) ((call_text y ++ y_after y) ++ rest) ;; ret (Some r)) s) (y_after y ++ rest) b.
Proof.
  intros Hm He K1 K A Sd X H0 O Af Sm Gb Rm Ov. rewrite <- app_assoc.
  destruct (proj1 run_calls m k T t here y b t' here' rest s out q) as (s' & b0 & q' & P1 & (P2 & P3 & _) & P4); auto; [unfold good; auto|].
  rewrite (bind_ok _ _ _ _ _ P1). exists s', b0, q'. auto.
Qed.
Lemma call_head y r : name_ok (y_name y) -> exists c u, call_text y ++ r = c :: u /\ name_start c.
Proof. intros (_ & (c & u & E & Ns) & _). unfold call_text. rewrite E. cbn [app]. eauto. Qed.
(** ** Statements that begin with a dot or an equals sign *)
Lemma stmt_runs m f k now t t' T here here' lab x b rest s out q : (20 <= m)%nat -> (enough <= m)%nat -> 1 <= k ->
  core k t s -> at_ here out q s -> sound C t -> ext C t' T -> 0 <= here <= 999999999 -> stmt_ok here t x ->
  match x with SInstr _ _ _ _ _ _ _ _ => False | SCall y => y_args y <> None | _ => True end ->
  moves now t here lab x = Some (t', here') -> small here' = true ->
  match lab with Some n => t = (n, here) :: now /\ s_last_label s = Some (key C n) | None => True end ->
  gives_bytes T t here x = Some b -> zlen out + zlen b <= 8000000 -> line_over rest ->
  runs k t' T here' out q (line_sec C (knot C (S m)) (S f) (stmt_text x ++ rest) s) (trail x ++ rest) b.
Proof.
  intros Hm He K1 K A Sd X H0 O NI Mv Sm Lb Gb Rm Ov. unfold small, within in Sm.
  assert (Dir : forall w gap r l d, word_is w l = true -> Forall (fun k => forallb isalpha k = true /\ (length k < 32)%nat /\ find_ci k directives = Some d) l -> gap_ok gap ->
    Forall (fun c => isspace c = false) w /\ skip_nonspace (w ++ gap ++ r) = gap ++ r /\ seg (w ++ gap ++ r) (gap ++ r) = w /\
    (if Nat.ltb (length w) 32 then find_ci w directives else None) = Some d /\ skip_ws (gap ++ r) = skip_ws r).
  { intros w gap r l d W F G. destruct (word_found w l d W F) as (W1 & W2). pose proof (skip_word w gap r W1 G) as E. split; [exact W1|]. split; [exact E|].
    split; [now apply seg_app|]. split; [exact W2|]. apply skip_ws_app. apply G. }
  destruct x as [|name sfx o i gap ws ts es|word width gap l|word gap w wv|word gap w|word gap w|w|y|z]; cbn [stmt_text moves gives_bytes trail app] in *; try contradiction.
  - injection Mv as <- <-. injection Gb as <-. exists s, [], []. rewrite !app_nil_r. cbn [app line_sec]. rewrite (over_eol rest Ov).
    split; [reflexivity|]. split; [exact K|]. split; [exact A|apply fills_nil].
  - injection Mv as <- <-. destruct O as (G & NE & Od & Ow). cbn [app line_sec is_eol hd0 tl]. cbn [Z.eqb Pos.eqb orb isalpha isupper islower isspace andb Z.leb Z.compare Pos.compare Pos.compare_cont]. rewrite <- !app_assoc.
    assert (Wd : (1 <= width <= 3)%nat) by (destruct width as [|[|[|[|?]]]]; try contradiction; lia).
    assert (Hd : exists d l0, word_is word l0 = true /\ Forall (fun k => forallb isalpha k = true /\ (length k < 32)%nat /\ find_ci k directives = Some d) l0 /\
       (forall B (e1 e2 e3 : B), match d with D_DB => e1 | D_DW => e2 | _ => e3 end = match width with 1%nat => e1 | 2%nat => e2 | _ => e3 end) /\ (d = D_DB \/ d = D_DW \/ d = D_DL)).
    { destruct width as [|[|[|[|?]]]]; try contradiction.
      - exists D_DB. eexists. split; [exact Ow|]. split; [repeat constructor; vm_compute; lia|]. auto.
      - exists D_DW. eexists. split; [exact Ow|]. split; [repeat constructor; vm_compute; lia|]. auto.
      - exists D_DL. eexists. split; [exact Ow|]. split; [repeat constructor; vm_compute; lia|]. auto. }
    destruct Hd as (d & l0 & W & F & Sel & Dd). destruct (Dir word gap (data_text l ++ rest) l0 d W F G) as (_ & E1 & E2 & E3 & E4).
    unfold handle_directive. rewrite E1, E2, E3, E4.
    assert (G0 : exists s' b0 q', (let* ' (r, _) := f_emit (knot C (S m)) (skip_ws (data_text l ++ rest)) (etype_of width) in ret (Some r)) s = Ok (Some rest) s' /\ core k t s' /\
       at_ (here + data_size width l) (out ++ b0) (q ++ q') s' /\ fills T (zlen out) q' b0 b).
    { change (f_emit (knot C (S m))) with (parse_emit_string C (knot C m)). unfold parse_emit_string. rewrite !bind_assoc, bind_get, !bind_assoc, bind_upd.
      set (s1 := set_emitlev _ s). assert (K2 : core k t s1) by (subst s1; core_tac). assert (A2 : at_ here out q s1) by (subst s1; at_tac).
      pose proof (fuel_data l rest NE (data_oks _ _ _ _ _ _ Od)) as Fu.
      destruct (data_loop C D ops normal D_names n2 deep2 m k t T width Hm K1 Wd Sd X l here out q s1 None b rest (S (length (skip_ws (data_text l ++ rest)))) NE K2 A2 Od Gb Rm)
        as (s2 & b0 & q' & P1 & P2 & P3 & P4); try lia; auto.
      rewrite bind_assoc. assert (P : emit_loop C (knot C m) (S (length (skip_ws (data_text l ++ rest)))) (etype_of width) None true (skip_ws (data_text l ++ rest)) s1 = Ok (rest, []) s2) by (rewrite emit_skip; exact P1).
      rewrite (bind_ok _ _ _ _ _ P). cbv beta iota. rewrite !bind_assoc, bind_get, !bind_assoc, bind_upd, bind_ret. exists (set_emitlev (s_emitlev s2 - 1) s2), b0, q'.
      split; [reflexivity|]. split; [core_tac|]. split; [at_tac|exact P4]. }
    destruct G0 as (s' & b0 & q' & P1 & P2 & P3 & P4). exists s', b0, q'. split; [|auto]. rewrite <- P1.
    destruct width as [|[|[|[|?]]]]; try contradiction; destruct Dd as [->|[->| ->]]; try reflexivity; specialize (Sel nat 0%nat 1%nat 2%nat); discriminate.
  - destruct O as (G & W & Kw & Kv). destruct (fill_args t here w wv) as [(cnt, v)|] eqn:Fa; [|discriminate]. injection Mv as <- <-. injection Gb as <-.
    cbn [app line_sec is_eol hd0 tl]. cbn [Z.eqb Pos.eqb orb isalpha isupper islower isspace andb Z.leb Z.compare Pos.compare Pos.compare_cont]. rewrite <- !app_assoc.
    destruct (Dir word gap (wr w ++ match wv with Some w => 44 :: wr w | None => [] end ++ rest) _ D_FILL W) as (_ & E1 & E2 & E3 & E4); [repeat constructor; vm_compute; lia|exact G|].
    unfold handle_directive. rewrite E1, E2, E3, E4.
    assert (Cn : 0 <= cnt). { unfold AsmSpec.fill_args in Fa. destruct (val _ _ _); [|discriminate]. destruct (match wv with Some _ => _ | None => _ end); [|discriminate]. destruct (_ && _) eqn:Q in Fa; [|discriminate]. injection Fa as -> ->. unfold within in Q. lia. }
    assert (Rm' : zlen out + cnt <= 8000000) by (unfold zlen in Rm at 2; rewrite repeat_length in Rm; lia).
    destruct (fill_ok C D ops D_names n2 deep2 (S m) k t s here out q w wv cnt v rest) as (s' & P1 & P2 & P3); auto; try lia.
    rewrite (bind_ok _ _ _ _ _ P1). exists s', (repeat (v mod 256) (Z.to_nat cnt)), []. rewrite app_nil_r. split; [reflexivity|]. split; [exact P2|]. split; [exact P3|apply fills_nil].
  - destruct O as (G & W & Kw). destruct (val here t (w_expr w)) as [v|] eqn:V; [|discriminate]. injection Mv as <- <-. injection Gb as <-.
    cbn [app line_sec is_eol hd0 tl]. cbn [Z.eqb Pos.eqb orb isalpha isupper islower isspace andb Z.leb Z.compare Pos.compare Pos.compare_cont]. rewrite <- !app_assoc.
    destruct (Dir word gap (wr w ++ rest) _ D_ORG W) as (_ & E1 & E2 & E3 & E4); [repeat constructor; vm_compute; lia|exact G|].
    unfold handle_directive. rewrite E1, E2, E3, E4. apply (runs_of1 C D ops n2).
    apply (org_ok C D ops D_names n2 deep2 (S m) k t s here out q w v rest); auto; lia.
  - destruct O as (G & W & Kw). destruct lab as [n|]; [|discriminate]. destruct (val here t (w_expr w)) as [v|] eqn:V; [|discriminate]. destruct (small v); [|discriminate]. injection Mv as <- <-. injection Gb as <-.
    cbn [app line_sec is_eol hd0 tl]. cbn [Z.eqb Pos.eqb orb isalpha isupper islower isspace andb Z.leb Z.compare Pos.compare Pos.compare_cont]. rewrite <- !app_assoc.
    destruct (Dir word gap (wr w ++ rest) _ D_EQU W) as (_ & E1 & E2 & E3 & E4); [repeat constructor; vm_compute; lia|exact G|].
    unfold handle_directive. rewrite E1, E2, E3, E4. apply (runs_of1 C D ops n2). destruct Lb as (-> & Ll).
    apply (equ_ok C D ops D_names (S m) k now n s here out q w v rest); auto; lia.
  - destruct lab as [n|]; [|discriminate]. destruct (val here t (w_expr w)) as [v|] eqn:V; [|discriminate]. destruct (small v); [|discriminate]. injection Mv as <- <-. injection Gb as <-.
    cbn [app line_sec is_eol hd0 tl]. cbn [Z.eqb Pos.eqb orb isalpha isupper islower isspace andb Z.leb Z.compare Pos.compare Pos.compare_cont].
    apply (runs_of1 C D ops n2). destruct Lb as (-> & Ll).
    apply (equ_ok C D ops D_names (S m) k now n s here out q w v rest); auto; lia.
  - pose proof (law_text lawful _ _ _ O) as (No & _). pose proof No as (_ & (c & u & En & Ns) & Nc).
    replace (line_sec C (knot C (S m)) (S f) ((call_text y ++ y_after y) ++ rest)) with (r <- handle_opcode_or_macro C (knot C (S m)) ((call_text y ++ y_after y) ++ rest) ;; ret (Some r));
      [apply (call_runs m k t t' T here here' y b rest s out q); auto; unfold small, within; lia|].
    rewrite line_sec_S. rewrite <- !app_assoc.
    assert (E3 : skip_to_name_end (call_text y ++ y_after y ++ rest) = 40 :: skipn 1 (match y_args y with Some l => 40 :: args_text l ++ [41] | None => [] end ++ y_after y ++ rest)).
    { unfold call_text. destruct (y_args y) as [l|]; [|congruence]. rewrite <- app_assoc. apply (skip_name_app (y_name y) _ Nc). reflexivity. }
    destruct (call_head y (y_after y ++ rest) No) as (c' & u' & E & Ns'). rewrite E in E3 |- *. rewrite E3.
    assert (E1 : is_eol (c' :: u') = false) by (apply is_eol_not; unfold name_start, line_ender in *; lia).
    assert (E2 : isalpha (hd0 (c' :: u')) || (hd0 (c' :: u') =? 95) = true) by (cbn [hd0]; unfold name_start in Ns'; unfold isalpha, isupper, islower; lia).
    rewrite E1, E2. reflexivity.
  - destruct (proj2 run_calls m k T t here z b t' here' rest s out q) as (s' & b0 & q' & P1 & (P2 & P3 & _) & P4); auto; try (unfold good; now auto); try (unfold small, within; lia).
    exists s', b0, q'. split; [exact P1|]. auto.
Qed.

(** ** Sections *)
Definition has_label (x : section) : nat := match x_label x with Some _ => 1 | None => 0 end.
Definition has_indent (x : section) : nat := match x_indent x with [] => 0 | _ => 1 end.
(** White space, then a statement. *)
Lemma body_runs m f k now t t' T here here' lab ind x b rest s out q : (20 <= m)%nat -> (enough <= m)%nat -> 1 <= k ->
  core k t s -> at_ here out q s -> sound C t -> ext C t' T -> 0 <= here <= 999999999 -> stmt_ok here t x -> Forall blank ind ->
  (ind = [] -> match x with SInstr _ _ _ _ _ _ _ _ => False | SCall y => y_args y <> None | _ => True end) ->
  moves now t here lab x = Some (t', here') -> small here' = true ->
  match lab with Some n => t = (n, here) :: now /\ s_last_label s = Some (key C n) | None => True end ->
  gives_bytes T t here x = Some b -> zlen out + zlen b <= 8000000 -> line_over rest ->
  runs k t' T here' out q (line_sec C (knot C (S m)) (S (match ind with [] => 0 | _ => 1 end) + f) (ind ++ stmt_text x ++ rest) s) (trail x ++ rest) b.
Proof.
  intros Hm He K1 K A Sd X H0 O Bi NI Mv Sm Lb Gb Rm Ov. destruct ind as [|c ind].
  - cbn [app plus]. eapply stmt_runs; eauto. now apply NI.
  - inversion Bi as [|? ? Bc Bi']; subst. destruct (blank_space c Bc) as (B1 & B2 & B3 & B4).
    cbn [app plus]. rewrite line_sec_S, (blank_eol c _ Bc). cbn [hd0]. rewrite B1, B2. replace (c =? 95) with false by lia. cbn [orb].
    change (skip_ws (c :: ind ++ stmt_text x ++ rest)) with (skip_ws ((c :: ind) ++ stmt_text x ++ rest)). rewrite skip_ws_app by exact Bi.
    assert (Dec : (exists name sfx o i gap ws ts es, x = SInstr name sfx o i gap ws ts es) \/ (exists y, x = SCall y) \/ match x with SInstr _ _ _ _ _ _ _ _ | SCall _ => False | _ => True end).
    { destruct x; auto; [left; eauto 10|right; left; eauto]. }
    destruct Dec as [(name & sfx & o & i & gap & ws & ts & es & ->)|[(y & ->)|NI']].
    + cbn [stmt_text moves gives_bytes] in *. injection Mv as <- <-. unfold small, within in Sm.
      destruct (instr_ok C D ops normal D_names n2 deep2 known_table (S m) k t T name sfx o i gap ws ts es s here out q b rest) as (s' & b0 & q' & P1 & P2 & P3 & P4); auto; try lia.
      assert (Al : exists a u, name = a :: u /\ isalpha a = true /\ ~ blank a).
      { destruct O as (Io & _ & Nm & _). assert (Ho2 : In o (opcode_list ++ opcode_list_ez80)) by (apply in_or_app; destruct known_table as [<-|<-]; auto).
        pose proof names_alpha as Na. rewrite forallb_forall in Na. specialize (Na o Ho2). destruct name as [|a u]; destruct (op_name o) as [|y v]; try discriminate.
        exists a, u. split; [reflexivity|]. cbn in Nm, Na. apply Bool.andb_true_iff in Nm as (Nm & _).
        assert (Ia : isalpha a = true). { unfold isalpha, isupper, islower, tolower, isupper in *. destruct (_ && _) eqn:? in Nm; destruct ((65 <=? y) && (y <=? 90)) eqn:? in Nm; lia. }
        split; [exact Ia|]. unfold blank, isalpha, isupper, islower in *. lia. }
      destruct Al as (a & u & -> & Ia & Nb). cbn [app]. rewrite skip_ws_nonblank by exact Nb. cbn [hd0]. rewrite Ia. cbn [orb]. rewrite <- !app_assoc.
      change (a :: u ++ sfx ++ gap ++ wtext ws ++ rest) with ((a :: u) ++ sfx ++ gap ++ wtext ws ++ rest).
      rewrite (bind_ok _ _ _ _ _ P1). exists s', b0, q'. auto.
    + cbn [stmt_text moves gives_bytes trail] in *. pose proof (law_text lawful _ _ _ O) as (No & _).
      pose proof (call_runs m k t t' T here here' y b rest s out q Hm He K1 K A Sd X H0 O Mv Sm Gb Rm Ov) as P. rewrite <- app_assoc in P |- *.
      destruct (call_head y (y_after y ++ rest) No) as (c' & u' & E & Ns'). rewrite E in P |- *.
      assert (E2 : isalpha (hd0 (c' :: u')) || (hd0 (c' :: u') =? 95) = true) by (cbn [hd0]; unfold name_start in Ns'; unfold isalpha, isupper, islower; lia).
      rewrite skip_ws_nonblank by (unfold name_start, blank in *; lia). rewrite E2. exact P.
    + assert (Hd : skip_ws (stmt_text x ++ rest) = stmt_text x ++ rest /\ isalpha (hd0 (stmt_text x ++ rest)) = false /\ hd0 (stmt_text x ++ rest) <> 95).
      { destruct x; try contradiction; cbn [stmt_text app]; try (split; [apply skip_ws_nonblank; unfold blank; lia|split; [reflexivity|cbn; lia]]).
        rewrite (over_skip rest Ov). split; [reflexivity|]. destruct (over_head rest Ov) as [->|E]; [split; [reflexivity|lia]|]. unfold line_ender in E. unfold isalpha, isupper, islower. lia. }
      destruct Hd as (-> & -> & E95). replace (hd0 (stmt_text x ++ rest) =? 95) with false by lia. cbn [orb]. eapply stmt_runs; eauto. destruct x; auto; contradiction.
Qed.
Lemma section_runs m f k now T here x now' here' b rest s out q : (20 <= m)%nat -> (enough <= m)%nat -> 1 <= k ->
  core k now s -> at_ here out q s -> sound C now -> ext C now' T -> 0 <= here <= 999999999 -> section_ok now here x ->
  after now here x = Some (now', here') -> emits T now here x = Some b -> zlen out + zlen b <= 8000000 -> line_over rest ->
  runs k now' T here' out q (line_sec C (knot C (S m)) (S (has_label x + has_indent x) + f) (section_text x ++ rest) s) (trail (x_stmt x) ++ rest) b.
Proof.
  intros Hm He K1 K A Sd X H0 ((Bi & In0) & Lo & So) Af Em Rm Ov.
  destruct (after_moves _ _ _ _ _ Af) as (t & Wl & Mv & Sm). rewrite Wl in So. rewrite (emits_bytes T now here x t Wl) in Em.
  assert (NI : x_indent x = [] -> match x_stmt x with SInstr _ _ _ _ _ _ _ _ => False | SCall y => y_args y <> None | _ => True end) by (intros E; specialize (In0 E); destruct (x_stmt x); auto; apply In0).
  unfold section_text, has_label, has_indent. unfold AsmSpec.with_label in Wl. destruct (x_label x) as [n|] eqn:Xl.
  2:{ injection Wl as <-. cbn [app plus]. rewrite <- app_assoc.
      apply (body_runs m f k now now now' T here here' None (x_indent x) (x_stmt x) b rest s out q); auto. }
  destruct (taken n || _) eqn:Tk in Wl; [discriminate|]. injection Wl as <-. apply Bool.orb_false_iff in Tk as (Tk & Lk).
  assert (Ln : lookup now n = None) by (destruct (lookup now n); [discriminate|reflexivity]).
  destruct Lo as (Nu & (c & u & En & Ns) & Nc).
  set (tail := x_indent x ++ stmt_text (x_stmt x) ++ rest).
  assert (Hd : x_colon x = true \/ (is_name_char (hd0 tail) = false /\ hd0 tail <> 40 /\ hd0 tail <> 58)).
  { destruct (x_colon x); [now left|right]. unfold tail. destruct (x_indent x) as [|y ind].
    - cbn [app]. specialize (In0 eq_refl). destruct (x_stmt x); cbn [stmt_text app hd0]; try contradiction; try (destruct In0; discriminate); try (split; [reflexivity|lia]).
      destruct (over_head rest Ov) as [E|E]; [rewrite E; split; [reflexivity|lia]|]. split; [|unfold line_ender in E; lia].
      revert E. generalize (hd0 rest). intros z E. unfold line_ender in E. unfold is_name_char, isalnum, isalpha, isupper, islower, isdigit. cbn [memb existsb]. lia.
    - inversion Bi as [|? ? By _]; subst. destruct (blank_space y By) as (_ & _ & _ & B4). cbn [app hd0]. split; [exact B4|]. unfold blank in By. lia. }
  set (colon := if x_colon x then [58] else []).
  assert (Tx : ((n ++ colon) ++ x_indent x ++ stmt_text (x_stmt x)) ++ rest = n ++ colon ++ tail) by (unfold tail; now rewrite <- !app_assoc).
  rewrite Tx. replace (S (1 + match x_indent x with [] => 0 | _ => 1 end) + f)%nat with (S (S (match x_indent x with [] => 0 | _ => 1 end) + f)) by (destruct (x_indent x); cbn; lia).
  rewrite line_sec_S.
  assert (E1 : is_eol (n ++ colon ++ tail) = false). { rewrite En. cbn [app is_eol]. unfold name_start in Ns. lia. }
  assert (E2 : isalpha (hd0 (n ++ colon ++ tail)) || (hd0 (n ++ colon ++ tail) =? 95) = true). { rewrite En. cbn [app hd0]. unfold name_start in Ns. unfold isalpha, isupper, islower. lia. }
  assert (E3 : is_name_char (hd0 (colon ++ tail)) = false /\ hd0 (colon ++ tail) <> 40 /\ skip_char 58 (colon ++ tail) = tail).
  { unfold colon. destruct Hd as [->|(H1 & H2 & H3)]; [split; [reflexivity|split; [cbn; lia|reflexivity]]|]. destruct (x_colon x); [split; [reflexivity|split; [cbn; lia|reflexivity]]|].
    cbn [app]. split; [exact H1|]. split; [exact H2|]. unfold skip_char. replace (hd0 tail =? 58) with false by lia. reflexivity. }
  destruct E3 as (E3 & E4 & E5).
  rewrite E1, E2. rewrite (skip_name_app n (colon ++ tail) Nc E3). replace (hd0 (colon ++ tail) =? 40) with false by lia. rewrite seg_app, E5.
  replace (eqbl n (zs "_")) with false by (symmetry; now apply eqbl_neq).
  destruct (label_new C D ops D_names n2 deep2 k now n s here out q) as (s1 & P1 & P2 & P3 & P4); auto.
  rewrite (bind_ok _ _ _ _ _ P1).
  apply (body_runs m f k now ((n, here) :: now) now' T here here' (Some n) (x_indent x) (x_stmt x) b rest s1 out q); auto.
  apply sound_cons; auto. split; [exact Nu|]. split; [now exists c, u|exact Nc].
Qed.

(** ** Several sections *)
Notation output := (output (c_wrap C) (c_ez80 C) (key C) taken).
Notation symbols := (symbols (c_wrap C) (c_ez80 C) (key C) taken).
Notation sections_ok := (sections_ok (c_wrap C) (c_ez80 C) (key C) taken ops).
Fixpoint walk (now : table) (here : Z) (l : list section) : option (table * Z) :=
  match l with
  | [] => Some (now, here)
  | x :: l' => match after now here x with Some (now', here') => walk now' here' l' | None => None end
  end.
Lemma walk_symbols l1 l2 T : forall now here, symbols now here (l1 ++ l2) = Some T ->
  exists now' here', walk now here l1 = Some (now', here') /\ symbols now' here' l2 = Some T.
Proof.
  induction l1 as [|x l1 IH]; intros now here E; [cbn in *; eauto|]. cbn [app AsmSpec.symbols walk] in *. destruct (after now here x) as [(now', here')|]; [|discriminate]. now apply IH.
Qed.
Lemma walk_output T l1 l2 : forall now here b now' here', walk now here l1 = Some (now', here') -> output T now here (l1 ++ l2) = Some b ->
  exists b1 b2, output T now here l1 = Some b1 /\ output T now' here' l2 = Some b2 /\ b = b1 ++ b2.
Proof.
  induction l1 as [|x l1 IH]; intros now here b now' here' W E.
  - cbn in W. injection W as <- <-. exists [], b. auto.
  - cbn [app AsmSpec.output walk] in *. destruct (emits T now here x) as [c|]; [|discriminate]. destruct (after now here x) as [(n1, h1)|]; [|discriminate].
    destruct (output T n1 h1 (l1 ++ l2)) as [r|] eqn:Er; [|discriminate]. injection E as <-. destruct (IH _ _ _ _ _ W Er) as (b1 & b2 & -> & E2 & ->).
    exists (c ++ b1), b2. rewrite app_assoc. auto.
Qed.
Lemma walk_ok l1 l2 : forall now here now' here', walk now here l1 = Some (now', here') -> sections_ok now here (l1 ++ l2) ->
  sections_ok now here l1 /\ sections_ok now' here' l2.
Proof.
  induction l1 as [|x l1 IH]; intros now here now' here' W O.
  - cbn in W. injection W as <- <-. split; [exact I|exact O].
  - cbn [app AsmSpec.sections_ok walk] in *. destruct O as (O1 & O2). destruct (after now here x) as [(n1, h1)|]; [|contradiction].
    destruct (IH _ _ _ _ W O2) as (O3 & O4). auto.
Qed.
Lemma lookup_none t n : isSome (lookup t n) = false -> AsmSpec.assoc (key C) t n = None.
Proof. unfold AsmSpec.lookup. destruct (AsmSpec.assoc (key C) params n); [discriminate|]. now destruct (AsmSpec.assoc (key C) t n). Qed.
Lemma cons_ext n v t : AsmSpec.assoc (key C) t n = None -> ext C t ((n, v) :: t).
Proof.
  intros L m x E. rewrite assoc_cons. destruct (eqbl (key C m) (key C n)) eqn:Q; [|exact E]. exfalso. apply eqbl_eq in Q.
  assert (S : AsmSpec.assoc (key C) t m = AsmSpec.assoc (key C) t n). { clear -Q. induction t as [|(a, b) t IH]; [reflexivity|]. rewrite !assoc_cons. rewrite Q. destruct (eqbl _ _); [reflexivity|exact IH]. }
  congruence.
Qed.
Lemma after_ext now here x now' here' : after now here x = Some (now', here') -> ext C now now'.
Proof.
  intros E. destruct (after_moves _ _ _ _ _ E) as (t & Wl & Mv & _). unfold AsmSpec.with_label in Wl.
  assert (Et : ext C now t).
  { destruct (x_label x) as [n|]; [|injection Wl as <-; intros m v; auto]. destruct (taken n || _) eqn:Tk in Wl; [discriminate|]. injection Wl as <-.
    apply Bool.orb_false_iff in Tk as (_ & Tk). apply cons_ext. now apply lookup_none. }
  assert (Eq : forall v, (exists n, x_label x = Some n /\ now' = (n, v) :: now) -> ext C now now').
  { intros v (n & Xl & ->). rewrite Xl in Wl. destruct (taken n || _) eqn:Tk in Wl; [discriminate|]. apply Bool.orb_false_iff in Tk as (_ & Tk). apply cons_ext. now apply lookup_none. }
  destruct (x_stmt x); cbn [moves] in Mv.
  1-3: injection Mv as <- _; exact Et.
  - destruct (fill_args _ _ _ _) as [(a, b)|]; [|discriminate]. injection Mv as <- _. exact Et.
  - destruct (val _ _ _); [|discriminate]. injection Mv as <- _. exact Et.
  - destruct (x_label x) as [n|]; [|discriminate]. destruct (val _ _ _) as [v|]; [|discriminate]. destruct (small v); [|discriminate]. injection Mv as <- _. eauto.
  - destruct (x_label x) as [n|]; [|discriminate]. destruct (val _ _ _) as [v|]; [|discriminate]. destruct (small v); [|discriminate]. injection Mv as <- _. eauto.
  - intros n v H. apply (law_ext lawful _ _ _ _ _ Mv). now apply Et.
  - intros n v H. apply (law_pext lawful _ _ _ _ _ Mv). now apply Et.
Qed.
Lemma after_sound now here x now' here' : after now here x = Some (now', here') -> section_ok now here x -> sound C now -> 0 <= here <= 999999999 ->
  sound C now' /\ 0 <= here' <= 999999999.
Proof.
  intros E (_ & Lo & So) Sd H0. destruct (after_moves _ _ _ _ _ E) as (t & Wl & Mv & Sm). rewrite Wl in So. unfold AsmSpec.with_label in Wl.
  split; [|unfold small, within in Sm; lia].
  assert (St : sound C t).
  { destruct (x_label x) as [n|]; [|injection Wl as <-; exact Sd]. destruct (taken n || _) eqn:Tk in Wl; [discriminate|]. injection Wl as <-. now apply sound_cons. }
  destruct (x_stmt x); cbn [moves] in Mv.
  1-3: injection Mv as <- _; exact St.
  - destruct (fill_args _ _ _ _) as [(a, b)|]; [|discriminate]. injection Mv as <- _. exact St.
  - destruct (val _ _ _); [|discriminate]. injection Mv as <- _. exact St.
  - destruct (x_label x) as [n|]; [|discriminate]. destruct (val _ _ _) as [v|]; [|discriminate]. destruct (small v) eqn:Sv; [|discriminate]. injection Mv as <- _. unfold small, within in Sv. apply sound_cons; auto; lia.
  - destruct (x_label x) as [n|]; [|discriminate]. destruct (val _ _ _) as [v|]; [|discriminate]. destruct (small v) eqn:Sv; [|discriminate]. injection Mv as <- _. unfold small, within in Sv. apply sound_cons; auto; lia.
  - exact (law_sound lawful _ _ _ _ _ So Mv St H0).
  - exact (law_psound lawful _ _ _ _ _ So Mv St H0).
Qed.
Lemma ext_trans a b c : ext C a b -> ext C b c -> ext C a c.
Proof. intros H1 H2 n v E. auto. Qed.
Lemma walk_ext l : forall now here now' here', walk now here l = Some (now', here') -> ext C now now'.
Proof.
  induction l as [|x l IH]; intros now here now' here' W; cbn [walk] in W; [injection W as <- _; intros n v; auto|].
  destruct (after now here x) as [(n1, h1)|] eqn:E; [|discriminate]. eapply ext_trans; [eapply after_ext; exact E|eapply IH; exact W].
Qed.


Lemma one_section m k T now here x now' here' b rest s out q : (20 <= m)%nat -> (enough <= m)%nat -> 1 <= k -> good k now here out q s -> ext C now' T -> section_ok now here x ->
  after now here x = Some (now', here') -> emits T now here x = Some b -> zlen out + zlen b <= 8000000 -> line_over rest ->
  goes k T now' here' out q (line_sec C (knot C (S m)) (S (length (section_text x ++ rest))) (section_text x ++ rest) s) (Some (trail (x_stmt x) ++ rest)) b.
Proof.
  intros Hm He K1 (K & A & Sd & H0) X O Af Em Rm Ov.
  assert (Le : (has_label x + has_indent x <= length (section_text x))%nat).
  { unfold section_text, has_label, has_indent. rewrite !app_length. destruct O as (_ & Lo & _). destruct (x_label x) as [n|].
    - destruct Lo as (_ & (c & u & -> & _) & _). cbn [app length]. destruct (x_indent x); cbn [length]; lia.
    - destruct (x_indent x); cbn [length]; lia. }
  pose proof (section_runs m (length (section_text x ++ rest) - (has_label x + has_indent x)) k now T here x now' here' b rest s out q Hm He K1 K A Sd X H0 O Af Em Rm Ov) as (s' & b0 & q' & P1 & P2 & P3 & P4).
  replace (S (has_label x + has_indent x) + (length (section_text x ++ rest) - (has_label x + has_indent x)))%nat with (S (length (section_text x ++ rest))) in P1 by (rewrite app_length; lia).
  destruct (after_sound _ _ _ _ _ Af O Sd H0) as (Sd' & H0'). exists s', b0, q'. split; [exact P1|]. split; [|exact P4]. unfold good. auto.
Qed.
Lemma trail_skip now here x rest : section_ok now here x -> line_over rest -> skip_ws (trail (x_stmt x) ++ rest) = rest.
Proof.
  intros (_ & _ & O) Ov. rewrite skip_ws_app; [now apply over_skip|]. destruct (with_label now here x); [|contradiction].
  destruct (x_stmt x); cbn [trail]; try constructor. exact (proj2 (law_text lawful _ _ _ O)).
Qed.
Definition more_text (xs : list section) : text := flat_map (fun x => 92 :: section_text x) xs.
Lemma more_over xs rest : line_over rest -> line_over (more_text xs ++ rest).
Proof. destruct xs as [|x xs]; [auto|]. intros _. right. eexists _, _. split; [reflexivity|]. unfold line_ender. lia. Qed.
Lemma loop_run m k T rest : (20 <= m)%nat -> (enough <= m)%nat -> 1 <= k -> line_over rest -> hd0 rest <> 92 ->
  forall xs fuel now here s out q b now' here', xs <> [] -> (length xs <= fuel)%nat -> good k now here out q s ->
  sections_ok now here xs -> walk now here xs = Some (now', here') -> ext C now' T -> output T now here xs = Some b -> zlen out + zlen b <= 8000000 ->
  goes k T now' here' out q (line_loop C (knot C (S m)) fuel (more_text xs ++ rest) s) (Some rest) b.
Proof.
  intros Hm He K1 Ov Nr. induction xs as [|x xs IH]; intros fuel now here s out q b now' here' NE Fu G O W X Ob Rm; [congruence|].
  destruct fuel as [|fuel]; [cbn in Fu; lia|]. cbn [AsmSpec.sections_ok walk AsmSpec.output] in *. destruct O as (O1 & O2).
  destruct (after now here x) as [(n1, h1)|] eqn:Af; [|discriminate]. destruct (emits T now here x) as [b1|] eqn:Em; [|discriminate].
  destruct (output T n1 h1 xs) as [b2|] eqn:Ob2; [|discriminate]. injection Ob as <-. rewrite zlen_app in Rm. pose proof (zlen_nonneg b1). pose proof (zlen_nonneg b2).
  pose proof (walk_ext _ _ _ _ _ W) as X1.
  assert (Tx : more_text (x :: xs) ++ rest = 92 :: section_text x ++ more_text xs ++ rest) by (unfold more_text; cbn [flat_map app]; now rewrite <- app_assoc).
  rewrite Tx. cbn [line_loop]. change (skip_char 92 (92 :: section_text x ++ more_text xs ++ rest)) with (section_text x ++ more_text xs ++ rest).
  destruct (one_section m k T now here x n1 h1 b1 (more_text xs ++ rest) s out q Hm He K1 G (ext_trans _ _ _ X1 X) O1 Af Em) as (s1 & c1 & q1 & P1 & G1 & F1); [lia|now apply more_over|].
  rewrite (bind_ok _ _ _ _ _ P1). rewrite (trail_skip _ _ _ _ O1 (more_over xs rest Ov)). rewrite bind_get. rewrite (k_erroc _ _ _ _ _ _ (proj1 G1)). cbn [negb andb].
  assert (L1 : zlen c1 = zlen b1) by (destruct F1 as (L & _); unfold zlen; now rewrite L).
  destruct xs as [|x2 xs].
  - cbn in W. injection W as <- <-. cbn in Ob2. injection Ob2 as <-. cbn [more_text flat_map app]. replace (hd0 rest =? 92) with false by lia. rewrite app_nil_r.
    exists s1, c1, q1. auto.
  - change (hd0 (more_text (x2 :: xs) ++ rest) =? 92) with true. cbv iota.
    destruct (IH fuel n1 h1 s1 (out ++ c1) (q ++ q1) b2 now' here') as (s2 & c2 & q2 & P2 & G2 & F2); auto; [discriminate|cbn in *; lia|rewrite zlen_app; lia|].
    exists s2, (c1 ++ c2), (q1 ++ q2). split; [exact P2|]. rewrite <- !app_assoc in G2. split; [exact G2|]. apply fills_app; [exact F1|]. now rewrite zlen_app in F2.
Qed.
Definition tail_text (l : line) : text := match l_comment l with Some t => 59 :: t | None => [] end ++ (if l_cr l then [13; 10] else [10]).
Lemma tail_over l more : line_over (tail_text l ++ more) /\ hd0 (tail_text l ++ more) <> 92.
Proof.
  unfold tail_text. destruct (l_comment l), (l_cr l); cbn [app hd0]; (split; [right; eexists _, _; split; [reflexivity|]; unfold line_ender; lia|lia]).
Qed.
Lemma tail_next l more : line_ok l -> skip_to_next_line (tail_text l ++ more) = more.
Proof.
  intros O. unfold tail_text, line_ok in *. rewrite <- app_assoc. apply skip_to_next_line_spec.
  - destruct (l_comment l); [|constructor]. constructor; [unfold line_break; lia|]. eapply Forall_impl; [|exact O]. intros c (H1 & H2). unfold line_break. lia.
  - destruct (l_cr l); constructor.
Qed.
Lemma line_run m k T l more fuel now here s out q b now' here' : (20 <= m)%nat -> (enough <= m)%nat -> 1 <= k -> (S (length (l_more l)) <= fuel)%nat -> good k now here out q s ->
  sections_ok now here (l_first l :: l_more l) -> walk now here (l_first l :: l_more l) = Some (now', here') -> ext C now' T ->
  output T now here (l_first l :: l_more l) = Some b -> zlen out + zlen b <= 8000000 ->
  goes k T now' here' out q (line_loop C (knot C (S m)) fuel (line_text l ++ more) s) (Some (tail_text l ++ more)) b.
Proof.
  intros Hm He K1 Fu G O W X Ob Rm. destruct (tail_over l more) as (Ov & Nr).
  assert (Tx : line_text l ++ more = section_text (l_first l) ++ more_text (l_more l) ++ tail_text l ++ more) by (unfold line_text, more_text, tail_text; now rewrite <- !app_assoc).
  rewrite Tx. set (x := l_first l) in *. destruct (section_text x) as [|c u] eqn:Es.
  - (* nothing before the first backslash *)
    destruct (l_more l) as [|x2 xs] eqn:Em.
    + pose proof (loop_run m k T (tail_text l ++ more) Hm He K1 Ov Nr [x] fuel now here s out q b now' here' ltac:(discriminate) Fu G O W X Ob Rm) as P.
      unfold more_text in P. cbn [flat_map app] in P. rewrite Es in P. cbn [app more_text flat_map] in *.
      destruct fuel as [|fuel]; [lia|]. cbn [line_loop] in *. change (skip_char 92 (92 :: tail_text l ++ more)) with (tail_text l ++ more) in P.
      replace (skip_char 92 (tail_text l ++ more)) with (tail_text l ++ more); [exact P|]. unfold skip_char. replace (hd0 (tail_text l ++ more) =? 92) with false by lia. reflexivity.
    + cbn [AsmSpec.sections_ok walk AsmSpec.output] in O, W, Ob. destruct O as (O1 & O2).
      destruct (after now here x) as [(n1, h1)|] eqn:Af; [|discriminate]. destruct (emits T now here x) as [b1|] eqn:Em1; [|discriminate].
      destruct (output T n1 h1 (x2 :: xs)) as [b2|] eqn:Ob2; [|cbn [AsmSpec.output] in Ob2; rewrite Ob2 in Ob; discriminate].
      assert (b = b1 ++ b2) as ->. { cbn [AsmSpec.output] in Ob2. rewrite Ob2 in Ob. congruence. }
      rewrite zlen_app in Rm. pose proof (zlen_nonneg b1). pose proof (zlen_nonneg b2).
      pose proof (walk_ext (x2 :: xs) _ _ _ _ W) as X1.
      destruct (one_section m k T now here x n1 h1 b1 (more_text (x2 :: xs) ++ tail_text l ++ more) s out q Hm He K1 G (ext_trans _ _ _ X1 X) O1 Af Em1) as (s1 & c1 & q1 & P1 & G1 & F1); [lia|now apply more_over|].
      rewrite Es in P1. rewrite line_sec_S in P1. cbn [app] in P1. rewrite (over_eol _ (more_over (x2 :: xs) (tail_text l ++ more) Ov)) in P1. injection P1 as _ <-.
      assert (L1 : zlen c1 = zlen b1) by (destruct F1 as (L & _); unfold zlen; now rewrite L).
      destruct (loop_run m k T (tail_text l ++ more) Hm He K1 Ov Nr (x2 :: xs) fuel n1 h1 s (out ++ c1) (q ++ q1) b2 now' here') as (s2 & c2 & q2 & P2 & G2 & F2); auto; [discriminate|cbn in *; lia|rewrite zlen_app; lia|].
      exists s2, (c1 ++ c2), (q1 ++ q2). split; [exact P2|]. rewrite <- !app_assoc in G2. split; [exact G2|]. apply fills_app; [exact F1|]. now rewrite zlen_app in F2.
  - assert (N92 : c <> 92).
    { destruct O as (((Bi & In0) & Lo & So) & _). unfold section_text in Es. destruct (x_label x) as [n|].
      - destruct Lo as (_ & (y & v & -> & Ns) & _). cbn in Es. injection Es as <- _. unfold name_start in Ns. lia.
      - destruct (x_indent x) as [|y ind]; [|injection Es as <- _; inversion Bi; subst; unfold blank in *; lia]. specialize (In0 eq_refl). cbn [app] in Es.
        destruct (x_stmt x); cbn [stmt_text] in Es; try contradiction; try discriminate; try (injection Es as <- _; lia).
        destruct (with_label now here x); [|contradiction]. destruct (call_head y (y_after y) (proj1 (law_text lawful _ _ _ So))) as (y' & v & E & Ns). cbn [stmt_text] in Es. rewrite E in Es. injection Es as <- _. unfold name_start in Ns. lia. }
    pose proof (loop_run m k T (tail_text l ++ more) Hm He K1 Ov Nr (x :: l_more l) fuel now here s out q b now' here' ltac:(discriminate) Fu G O W X Ob Rm) as P.
    unfold more_text in P at 1. cbn [flat_map app] in P. rewrite Es, <- app_assoc in P. destruct fuel as [|fuel]; [lia|]. cbn [line_loop] in *.
    replace (skip_char 92 ((c :: u) ++ more_text (l_more l) ++ tail_text l ++ more)) with ((c :: u) ++ more_text (l_more l) ++ tail_text l ++ more); [exact P|].
    unfold skip_char. cbn [app hd0]. replace (c =? 92) with false by lia. reflexivity.
Qed.

(** ** The first pass *)
Lemma pass_run m k T : (20 <= m)%nat -> (enough <= m)%nat -> 1 <= k ->
  forall p fuel now here s out q b, (length p < fuel)%nat -> Forall (fun l => line_ok l /\ (length (l_more l) <= m)%nat) p -> good k now here out q s ->
  sections_ok now here (sections p) -> symbols now here (sections p) = Some T -> output T now here (sections p) = Some b -> zlen out + zlen b <= 8000000 ->
  exists here', goes k T T here' out q (pass_loop (knot C (S (S m))) fuel (program_text p) s) tt b.
Proof.
  intros Hm He K1. induction p as [|l p IH]; intros fuel now here s out q b Fu Fl G O Sy Ob Rm; (destruct fuel as [|fuel]; [cbn in Fu; lia|]).
  - cbn in Sy, Ob. injection Sy as ->. injection Ob as <-. exists here. exists s, [], []. rewrite !app_nil_r. cbn [program_text flat_map pass_loop]. rewrite bind_get.
    split; [reflexivity|]. split; [exact G|apply fills_nil].
  - inversion Fl as [|? ? (Lo & Lm) Fl']; subst. change (sections (l :: p)) with ((l_first l :: l_more l) ++ sections p) in *.
    destruct (walk_symbols _ _ _ _ _ Sy) as (n1 & h1 & W & Sy'). destruct (walk_output _ _ _ _ _ _ _ _ W Ob) as (b1 & b2 & Ob1 & Ob2 & ->). destruct (walk_ok _ _ _ _ _ _ W O) as (O1 & O2).
    rewrite zlen_app in Rm. pose proof (zlen_nonneg b1). pose proof (zlen_nonneg b2).
    assert (X : ext C n1 T). { rewrite <- (app_nil_r (sections p)) in Sy'. destruct (walk_symbols _ _ _ _ _ Sy') as (n3 & h3 & W3 & E3). cbn in E3. injection E3 as <-. eapply walk_ext. exact W3. }
    cbn [program_text flat_map pass_loop]. fold (program_text p). rewrite bind_get. rewrite (k_erroc _ _ _ _ _ _ (proj1 G)).
    destruct (line_run m k T l (program_text p) (S m) now here s out q b1 n1 h1) as (s1 & c1 & q1 & P1 & G1 & F1); auto; try lia.
    assert (Tn : exists c u, line_text l ++ program_text p = c :: u).
    { destruct (line_text l ++ program_text p) as [|c u] eqn:E; [|eauto]. exfalso. unfold line_text in E. destruct (l_cr l); rewrite <- !app_assoc in E; apply app_eq_nil in E as (_ & E); apply app_eq_nil in E as (_ & E); apply app_eq_nil in E as (_ & E); discriminate. }
    destruct Tn as (c & u & Tn). rewrite Tn in *.
    change (f_line (knot C (S (S m)))) with (line_loop C (knot C (S m)) (S m)).
    rewrite (bind_ok _ _ _ _ _ P1). rewrite (tail_next l _ Lo). unfold add_line. rewrite bind_assoc, bind_get, bind_upd.
    set (s2 := set_line _ s1). assert (L1 : zlen c1 = zlen b1) by (destruct F1 as (L & _); unfold zlen; now rewrite L).
    assert (G2 : good k n1 h1 (out ++ c1) (q ++ q1) s2). { destruct G1 as (Q1 & Q2 & Q3 & Q4). split; [subst s2; core_tac|]. split; [subst s2; at_tac|]. auto. }
    destruct (IH fuel n1 h1 s2 (out ++ c1) (q ++ q1) b2) as (h2 & s3 & c2 & q2 & P3 & G3 & F3); auto; [cbn in Fu; lia|rewrite zlen_app; lia|].
    exists h2, s3, (c1 ++ c2), (q1 ++ q2). split; [exact P3|]. rewrite <- !app_assoc in G3. split; [exact G3|]. apply fills_app; [exact F1|]. now rewrite zlen_app in F3.
Qed.
End Lines.

(** ** Programs without calls *)
Lemma no_calls_lawful {Pm : Params} C : @calls_lawful Pm no_calls C.
Proof. constructor; cbn; try discriminate; contradiction. Qed.
Lemma no_calls_run {lv : Level} {dr : Dirs} {Pm : Params} {fr : Frame} {Cs : Consts} C D ops n2 : @calls_run lv dr Pm fr Cs no_calls C D ops n2 0.
Proof. split; intros m k T t here y b t' here' rest s out q _ _ _ _ O; destruct O. Qed.
