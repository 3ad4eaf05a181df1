(** The assembler follows the reference assembler of AsmSpec: directives. *)
From Verif Require Import Base BaseProofs State MonadProofs UtilsModel ErrorsModel StorageModel ParserModel PassTwoModel
  PreopModel PassOneModel DirectiveModel Knot OpcodeTables UtilsSpec UtilsProofs StorageProofs PassTwoSpec PassTwoProofs
  ParserSpec ParserProofs ParserProps StringProps InstrSpec MatchSpec MatchProps AsmSpec AsmExpand AsmProofs.

(** ** Expressions as operands *)
Lemma piece_any : forall top q, piece_ok [44] top q -> piece_ok [] top q.
Proof.
  fix IH 3. intros top q [top' c H1 H2|top' l H|top' c H|top' c|top' l F].
  - constructor; [exact H1|]. intros T. split; [easy|]. now apply H2.
  - now constructor.
  - now constructor.
  - constructor.
  - constructor. induction F as [|x l Hx Fl IHl]; constructor; [now apply IH|exact IHl].
Qed.
Lemma begins_head te : begins te -> exists c t, te = c :: t /\ ~ blank c.
Proof.
  intros (w & Hw & [(-> & N)|[(c & t & -> & _ & B)|(b & c & t & -> & N & _)]]); destruct w as [|x w]; try congruence;
    try (exists c, t; now split); inversion Hw; subst; eexists _, _; (split; [reflexivity|]); now apply name_nonblank.
Qed.
Lemma written_operand {Pm : Params} delims w : delims = [] \/ delims = [44] -> written_ok w -> exists l, pieces_text l = w_text w /\ operand_okd delims (mkoperand (w_before w) l (w_after w)).
Proof.
  intros Hd (B1 & W & B2 & _ & L). destruct (proj2 expression_shape _ _ W) as ((l & El & Hl) & B & (tf & cf & Ef & Hf)).
  exists l. split; [exact El|]. unfold operand_okd, operand_text. cbn [o_before o_after o_body]. rewrite El.
  split; [exact B1|]. split; [exact B2|]. split.
  - destruct Hd as [-> | ->]; [|exact Hl]. eapply Forall_impl; [|exact Hl]. intros q. apply piece_any.
  - split; [now apply begins_head|]. split; [now exists cf, tf|exact L].
Qed.
Lemma atom_quote a : atom_ok a -> hd0 (atom_text a) <> 34.
Proof.
  destruct a as [l| |n|c|c]; cbn [atom_ok atom_text]; intros H; try (cbn; lia).
  - destruct (literal_names l H) as (w & Hw & Hn & [->|[->| ->]]); try (cbn; lia).
    destruct w as [|x w]; [congruence|]. inversion Hw as [|? ? K _]; subst. cbn. intros ->. revert K. unfold ParserSpec.name_char, ParserSpec.letter_or_digit. simpl. lia.
  - destruct H as (_ & (x & t & -> & H) & _). cbn. intros ->. revert H. unfold name_start. lia.
Qed.
Lemma writes_quote : (forall t tx, writes_term t tx -> hd0 tx <> 34 /\ tx <> []) /\ (forall e te, writes e te -> hd0 te <> 34 /\ te <> []).
Proof.
  apply writes_ind2.
  - intros g w a Ha Hw Hg. pose proof (sign_shape g) as S. destruct (sign_text g) as [|c t] eqn:E.
    + rewrite (Hg S). cbn [app]. split; [now apply atom_quote|]. destruct (atom_shape a Ha) as (B & _). apply begins_head in B as (c & t & -> & _). discriminate.
    + cbn [app hd0]. split; [|discriminate]. simpl in S. lia.
  - intros g w w1 e te w2 Hw Hg Hw1 _ _ Hw2. pose proof (sign_shape g) as S. destruct (sign_text g) as [|c t] eqn:E.
    + rewrite (Hg S). cbn. split; [lia|discriminate].
    + cbn [app hd0]. split; [|discriminate]. simpl in S. lia.
  - intros t tx _ H. exact H.
  - intros e te w1 o w2 t tx _ (H & N) _ _ _ _ _. destruct te as [|c te]; [congruence|]. split; [exact H|discriminate].
Qed.

(** ** String literals *)
Definition lit_item (c : Z) : sitem := if memb c [34; 92] then SE c else SC c.
Lemma lit_pieces t : pieces_text [PStr (map lit_item t)] = lit_text t.
Proof.
  unfold pieces_text. cbn [flat_map piece_text]. rewrite app_nil_r. unfold lit_text. f_equal. f_equal.
  induction t as [|c t IH]; [reflexivity|]. cbn [map flat_map]. rewrite IH. unfold lit_item, lit_char. now destruct (memb c [34; 92]).
Qed.
Lemma lit_items_ok t : Forall sitem_ok (map lit_item t).
Proof.
  apply Forall_map, Forall_forall. intros c _. unfold lit_item. destruct (memb c [34; 92]) eqn:E; [exact I|].
  cbn in *. lia.
Qed.
Lemma lit_escape t : lit_text t = escape_string t.
Proof.
  unfold lit_text, escape_string. f_equal. f_equal. induction t as [|c t IH]; [reflexivity|]. cbn [flat_map escape_body]. rewrite IH. f_equal.
  unfold lit_char. cbn [memb existsb]. destruct (Z.eqb_spec c 34) as [->|]; [reflexivity|]. destruct (Z.eqb_spec c 92) as [->|]; reflexivity.
Qed.
Lemma lit_end t : exists u, lit_text t = u ++ [34].
Proof. now exists (34 :: flat_map lit_char t). Qed.
Definition body (d : datum) : text := match d with DNum w => w_text w | DStr _ t _ => lit_text t end.
Definition before (d : datum) : text := match d with DNum w => w_before w | DStr b _ _ => b end.
Definition after_ (d : datum) : text := match d with DNum w => w_after w | DStr _ _ a => a end.
Lemma datum_parts d : datum_text d = before d ++ body d ++ after_ d.
Proof. now destruct d. Qed.
Lemma datum_operand {Pm : Params} d : datum_ok d -> exists l, pieces_text l = body d /\ operand_ok (mkoperand (before d) l (after_ d)).
Proof.
  destruct d as [w|b t a]; cbn [datum_ok body before after_].
  - intros H. apply (written_operand [44] w); auto.
  - intros (B1 & B2 & H & L). exists [PStr (map lit_item t)]. rewrite lit_pieces. split; [reflexivity|].
    unfold operand_ok, operand_okd, operand_text. cbn [o_before o_after o_body]. rewrite lit_pieces.
    split; [exact B1|]. split; [exact B2|]. split; [constructor; [|constructor]; constructor; apply lit_items_ok|].
    split; [eexists _, _; split; [reflexivity|unfold blank; lia]|]. split; [|exact L].
    destruct (lit_end t) as (u & ->). exists 34, u. split; [reflexivity|]. unfold blank. lia.
Qed.
Lemma over_stops rest : line_over rest -> stops_list rest.
Proof. intros [->|(c & t & -> & H)]; [now left|right; exists c, t; split; [reflexivity|now left]]. Qed.
Lemma over_eol rest : line_over rest -> is_eol rest = true.
Proof. intros [->|(c & t & -> & H)]; [reflexivity|now apply is_eol_cons]. Qed.
Lemma over_skip rest : line_over rest -> skip_ws rest = rest.
Proof. intros [->|(c & t & -> & H)]; [reflexivity|]. apply skip_ws_nonblank. unfold line_ender, blank in *. lia. Qed.
Lemma over_head rest : line_over rest -> hd0 rest = 0 \/ line_ender (hd0 rest).
Proof. intros [->|(c & t & -> & H)]; [now left|now right]. Qed.
Lemma extract_datum {Pm : Params} d rest more s : datum_ok d -> (exists t, rest = 44 :: t) \/ line_over rest ->
  extract_arg (datum_text d ++ rest) more s = Ok (Some (body d), if hd0 rest =? 44 then tl rest else rest, hd0 rest =? 44) s.
Proof.
  intros H Hr. destruct (datum_operand d H) as (l & El & O). rewrite datum_parts, <- !app_assoc, <- El.
  apply (extract_operand (mkoperand (before d) l (after_ d))); [exact O|]. destruct Hr as [Hr|Hr]; [now left|right; now apply over_stops].
Qed.
Lemma extract_end rest s : line_over rest -> extract_arg rest false s = Ok (None, rest, false) s.
Proof.
  intros H. unfold extract_arg, read_expr, read_expr', read_expr_gen. rewrite (over_skip rest H), (over_eol rest H). reflexivity.
Qed.


(** ** Directive words *)
Lemma word_same w k : eqbl_ci w k = true -> (forall A (l : list (text * A)), find_ci w l = find_ci k l) /\ length w = length k /\ Forall2 (fun c d => tolower c = tolower d) w k.
Proof.
  intros H.
  assert (F : forall a b, eqbl_ci a b = true -> length a = length b /\ Forall2 (fun c d => tolower c = tolower d) a b).
  { induction a as [|x a IH]; intros [|y b] E; try discriminate; [now split|]. cbn in E. apply Bool.andb_true_iff in E as (E & E').
    destruct (IH b E') as (L & F). split; [cbn; lia|]. constructor; [lia|exact F]. }
  destruct (F w k H) as (L & F2). split; [|now split]. intros A l. induction l as [|[n v] l IH]; [reflexivity|]. cbn [find_ci]. rewrite IH.
  replace (eqbl_ci n w) with (eqbl_ci n k); [reflexivity|]. clear -F2. revert n. induction F2 as [|x y w k Hxy F2 IH]; intros [|c n]; try reflexivity.
  cbn [eqbl_ci]. now rewrite IH, Hxy.
Qed.
Lemma word_found w l x : word_is w l = true -> Forall (fun k => forallb isalpha k = true /\ (length k < 32)%nat /\ find_ci k directives = Some x) l ->
  Forall (fun c => isspace c = false) w /\ (if Nat.ltb (length w) 32 then find_ci w directives else None) = Some x.
Proof.
  unfold word_is. intros H F. apply existsb_exists in H as (k & I & E). rewrite Forall_forall in F. destruct (F k I) as (Fa & Fl & Fd).
  destruct (word_same w k E) as (W1 & W2 & W3). rewrite W1, W2, Fd. replace (Nat.ltb (length k) 32) with true by (symmetry; now apply Nat.ltb_lt).
  split; [|reflexivity]. clear -W3 Fa. induction W3 as [|c d w k H W3 IH]; constructor.
  - cbn in Fa. apply Bool.andb_true_iff in Fa as (Fa & _). unfold isspace, isalpha, tolower, isupper, islower in *. destruct (_ && _) eqn:? in H; destruct (_ && _) eqn:? in H; lia.
  - cbn in Fa. apply Bool.andb_true_iff in Fa as (_ & Fa). now apply IH.
Qed.
Lemma skip_word w gap r : Forall (fun c => isspace c = false) w -> gap_ok gap -> skip_nonspace (w ++ gap ++ r) = gap ++ r.
Proof.
  intros F (N & B). induction F as [|c w H F IH]; cbn [app skip_nonspace].
  - destruct gap as [|c gap]; [congruence|]. inversion B as [|? ? Bc _]; subst. cbn. unfold blank in Bc. unfold isspace.
    replace ((c =? 32) || ((9 <=? c) && (c <=? 13))) with true by lia. reflexivity.
  - now rewrite H.
Qed.
Lemma skip_ws_idem p : skip_ws (skip_ws p) = skip_ws p.
Proof. induction p as [|c p IH]; [reflexivity|]. cbn. destruct (is_blank c) eqn:E; [exact IH|]. cbn. now rewrite E. Qed.
Lemma read_skip p d s : read_expr (skip_ws p) d s = read_expr p d s.
Proof. unfold read_expr, read_expr', read_expr_gen. now rewrite skip_ws_idem. Qed.
Lemma extract_skip p m s : extract_arg (skip_ws p) m s = extract_arg p m s.
Proof. unfold extract_arg. unfold bind at 1. rewrite read_skip. reflexivity. Qed.
Lemma emit_skip C R f t x p s : emit_loop C R (S f) t x true (skip_ws p) s = emit_loop C R (S f) t x true p s.
Proof. cbn [emit_loop]. unfold bind at 1. rewrite extract_skip. reflexivity. Qed.

Lemma read_written {Pm : Params} delims w rest s : delims = [] \/ delims = [44] -> written_ok w -> line_over rest \/ (delims = [44] /\ exists t, rest = 44 :: t) ->
  read_expr (wr w ++ rest) delims s = Ok (mkrx true rest (w_text w) false) s.
Proof.
  intros Hd W Hr. destruct (written_operand delims w Hd W) as (l & El & O). unfold read_expr, read_expr'.
  pose proof (read_operand_gen delims (mkoperand (w_before w) l (w_after w)) rest) as G. unfold operand_text in G. cbn [o_before o_body o_after] in G. rewrite El in G.
  unfold wr. rewrite <- !app_assoc. rewrite G; [reflexivity| | |exact O|].
  - destruct Hd as [-> | ->]; cbn; lia.
  - right. destruct Hd as [-> | ->]; cbn; [easy|]. intros c [<-|[]]. unfold blank. lia.
  - destruct Hr as [Hr|(-> & t & ->)]; [right; now apply over_stops|left; right; exists 44, t; cbn; auto].
Qed.
Lemma read_none rest s : line_over rest -> read_expr rest [] s = Ok (mkrx false rest [] false) s.
Proof. intros H. unfold read_expr, read_expr', read_expr_gen. now rewrite (over_skip rest H), (over_eol rest H). Qed.

(** ** Names *)
Lemma key_start C n w : key C n = key C w -> name_start (hd0 n) -> name_start (hd0 w).
Proof.
  unfold key. destruct (c_case C); [now intros ->|]. unfold strup. destruct n as [|c n], w as [|d w]; cbn; try discriminate; [auto|].
  intros E. injection E as E _. unfold toupper, islower, name_start in *. destruct (_ && _) eqn:? in E; destruct (_ && _) eqn:? in E; lia.
Qed.
Lemma assoc_key C t n m : key C n = key C m -> assoc (key C) t n = assoc (key C) t m.
Proof. intros E. induction t as [|(a, v) t IH]; [reflexivity|]. cbn [assoc]. now rewrite E, IH. Qed.
Lemma assoc_cons C n v t m : assoc (key C) ((n, v) :: t) m = if eqbl (key C m) (key C n) then Some v else assoc (key C) t m.
Proof.
  cbn. replace (eqbl (key C n) (key C m)) with (eqbl (key C m) (key C n)); [reflexivity|].
  destruct (eqbl (key C m) (key C n)) eqn:E; symmetry; [apply eqbl_eq in E; rewrite E; apply eqbl_refl|]. apply eqbl_neq in E. apply eqbl_neq. congruence.
Qed.
Lemma sound_cons C n v t : sound C t -> name_ok n -> 0 <= v <= 999999999 -> sound C ((n, v) :: t).
Proof.
  intros (S1 & S2) (_ & (c & u & -> & Hs) & _) V. split.
  - intros m x. rewrite assoc_cons. destruct (eqbl _ _); [|apply S1]. intros E. injection E as <-. exact V.
  - intros w Hw. rewrite assoc_cons. destruct (eqbl _ _) eqn:E; [|now apply S2]. apply eqbl_eq in E. exfalso. apply Hw. now apply (key_start C (c :: u)).
Qed.

Lemma data_text_length l : (length l <= S (length (data_text l)))%nat.
Proof.
  induction l as [|d l IH]; [cbn; lia|]. destruct l as [|d2 l]; [cbn; lia|]. change (data_text (d :: d2 :: l)) with (datum_text d ++ 44 :: data_text (d2 :: l)).
  rewrite app_length. cbn [length] in *. lia.
Qed.

Section Data.
Context {lv : Level} {dr : Dirs} {Pm : Params} {fr : Frame} {Cs : Consts}.
Variable C : cfg.
Variable D : list (text * define).
Variable ops : list opcode.
Hypothesis normal : c_normal C = true.
Hypothesis D_names : forall w, ~ name_start (hd0 w) -> tfind (key C w) D = None.
Variable n2 : nat.
Hypothesis deep2 : (20 <= n2)%nat.
Notation core := (core C D ops).
Notation fills := (fills C D ops n2).
Notation taken := (taken C D).
Notation lookup := (lookup (key C)).
Notation val := (val (c_wrap C) (key C)).
Notation emitted_core := (emitted_core C D ops).
Notation parse_known := (parse_known C D ops D_names).
Notation parse_unknown := (parse_unknown C D ops D_names).
Notation fills_nil := (fills_nil C D ops n2).
Notation fills_app := (fills_app C D ops D_names n2 deep2).
Notation add_expr := (add_expr C D ops D_names n2 deep2).
Notation close0 := (close0 C D ops D_names n2 deep2).
Notation close1 := (close1 C D ops D_names n2 deep2).
Ltac core_tac := match goal with H : core _ _ _ |- core _ _ _ => destruct H; constructor; assumption end.
Ltac at_tac := match goal with H : at_ _ _ _ _ |- at_ _ _ _ _ => destruct H; constructor; assumption end.

Lemma moved k t here out q m s : core k t s -> at_ here out q s -> 0 <= here -> 0 <= m -> here + m <= 999999999 ->
  exists s', add_pc m s = Ok tt s' /\ core k t s' /\ at_ (here + m) out q s' /\ s_errs s' = s_errs s.
Proof.
  intros K A H M L. eexists. split; [reflexivity|]. split; [core_tac|]. split; [|reflexivity]. destruct A as [A1 A2 A3 A4]; constructor; try assumption.
  cbn. rewrite A1. unfold u32. lia.
Qed.
Lemma moved2 k t here out q m s : core k t s -> at_ here out q s -> 0 <= here -> 0 <= m -> here + m <= 999999999 ->
  exists s', (add_datasize m ;;; add_pc m) s = Ok tt s' /\ core k t s' /\ at_ (here + m) out q s' /\ s_errs s' = s_errs s.
Proof.
  intros K A H M L. unfold add_datasize. rewrite bind_assoc, bind_get, bind_upd.
  set (s1 := set_datasize _ s). apply (moved k t here out q m s1); auto; subst s1; [core_tac|at_tac].
Qed.
Lemma emit_chars_ok k t q : forall u s here out, core k t s -> at_ here out q s -> Forall (fun c => 0 < c < 256 /\ c <> 10 /\ c <> 13) u -> 0 <= here -> here + zlen u <= 999999999 ->
  zlen out + zlen u <= 8000000 ->
  exists s', emit_chars C u s = Ok tt s' /\ core k t s' /\ at_ (here + zlen u) (out ++ u) q s' /\ s_errs s' = s_errs s.
Proof.
  induction u as [|c u IH]; intros s here out K A F H L R.
  - exists s. rewrite Z.add_0_r, app_nil_r. auto.
  - inversion F as [|? ? Hc F']; subst. rewrite zlen_cons in *. assert (0 <= zlen u) by (unfold zlen; lia). cbn [emit_chars]. rewrite normal. change (true || c_list C) with true. cbn [whenM].
    rewrite (bind_ok _ _ s tt (emitted [c] s)).
    2:{ rewrite write_out_emitted; [now rewrite u8_id by (unfold is_byte; lia)|]. split; rewrite (a_pos _ _ _ _ A); unfold zlen in *; lia. }
    assert (K1 : core k t (emitted [c] s)) by now apply emitted_core.
    assert (A1 : at_ here (out ++ [c]) q (emitted [c] s)) by now apply emitted_at.
    destruct (moved2 k t here (out ++ [c]) q 1 (emitted [c] s) K1 A1) as (s2 & E2 & K2 & A2 & R2); try lia.
    rewrite <- bind_assoc. rewrite (bind_ok _ _ _ _ _ E2).
    destruct (IH s2 (here + 1) (out ++ [c]) K2 A2 F') as (s3 & E3 & K3 & A3 & R3); try lia.
    { rewrite zlen_app. change (zlen [c]) with 1. lia. }
    exists s3. split; [exact E3|]. split; [exact K3|]. split; [|rewrite R3, R2; reflexivity]. rewrite <- app_assoc in A3.
    replace (here + (1 + zlen u)) with (here + 1 + zlen u) by lia. exact A3.
Qed.

Definition etype_of (width : nat) : etype := match width with 1%nat => E_BYTE | 2%nat => E_WORD | _ => E_LONG end.
Lemma etype_enc width here v : (1 <= width <= 3)%nat -> enc C (etype_arg (etype_of width)) here 0 0 v = number_bytes (c_ez80 C) width v.
Proof. intros H. destruct width as [|[|[|[|w]]]]; try lia; reflexivity. Qed.
Lemma etype_width width : (1 <= width <= 3)%nat -> etype_size (etype_of width) = Z.of_nat width /\ is_data (etype_of width) = true /\ etype_arg (etype_of width) <> ARG_RST.
Proof. intros H. destruct width as [|[|[|[|w]]]]; try lia; now repeat split. Qed.

Lemma emit_num n k t T w s here out q sess width v b : (20 <= n)%nat -> 1 <= k -> (1 <= width <= 3)%nat ->
  core k t s -> at_ here out q s -> sound C t -> ext C t T -> written_ok w -> expr_ok (c_wrap C) (key C) taken here t (w_expr w) ->
  val here T (w_expr w) = Some v -> number_bytes (c_ez80 C) width v = Some b -> zlen out + zlen b <= 8000000 ->
  0 <= here -> here + Z.of_nat width <= 999999999 ->
  exists s' b0 q' x, emit_word C (knot C n) (w_text w) (etype_of width) sess s = Ok ([], x) s' /\ core k t s' /\
    at_ (here + Z.of_nat width) (out ++ b0) (q ++ q') s' /\ fills T (zlen out) q' b0 b.
Proof.
  intros Hn K1 Hw K A Sd X (_ & W & _ & N & _) (F & MW) V E Rm H0 H1.
  destruct (etype_width width Hw) as (Ez & Ed & Er). rewrite <- (etype_enc width here v Hw) in E.
  unfold emit_word. replace (hd0 (w_text w) =? 34) with false by (pose proof (proj1 (proj2 writes_quote _ _ W)); lia).
  unfold start_session. rewrite !bind_assoc, bind_get, !bind_assoc, bind_upd, bind_ret. rewrite Ed, Ez. rewrite (k_sess _ _ _ _ _ _ K).
  set (s1 := set_sess (k + 1) s).
  assert (K' : core (k + 1) t s1).
  { destruct K; constructor; try assumption; [reflexivity|]. apply errs_up. assumption. }
  assert (A1 : at_ here out q s1) by at_tac.
  assert (Pc : s_pc s1 = here) by apply (a_pc _ _ _ _ A1).
  assert (Es : errs_ok k (s_errs s1)) by apply (k_errs _ _ _ _ _ _ K).
  pose proof (parse_known n Hn _ _ s1 (w_expr w) (w_text w) [] [] [] v K' F W N (Forall_nil _) (Forall_nil _) (or_introl eq_refl)) as Pk.
  pose proof (parse_unknown n Hn _ _ s1 (w_expr w) (w_text w) [] [] [] K' F W N (Forall_nil _) (Forall_nil _) (or_introl eq_refl)) as Pu.
  rewrite Pc in Pk, Pu. cbn [app] in Pk, Pu. rewrite app_nil_r in Pk, Pu.
  destruct (val_cases C t T here (w_expr w) v X V) as [Vk|Vu].
  - rewrite (bind_ok _ _ _ _ _ (Pk Vk)). rewrite bind_get. cbv iota.
    set (s2 := set_depth 0 (set_fwd false s1)) in *. rewrite !bind_assoc.
    rewrite (bind_ok _ _ s2 tt (emitted b s2)).
    2:{ apply write_enc; auto; [change (s_pc s2) with (s_pc s1); now rewrite Pc| |lia|split; lia].
        split; change (s_pos s2) with (s_pos s); rewrite (a_pos _ _ _ _ A); unfold zlen in *; lia. }
    assert (K2 : core (k + 1) t (emitted b s2)) by (apply emitted_core; subst s2; core_tac).
    assert (A2 : at_ here (out ++ b) q (emitted b s2)) by (apply emitted_at; subst s2; at_tac).
    destruct (moved2 (k + 1) t here (out ++ b) q (Z.of_nat width) _ K2 A2) as (s3 & E3 & K3 & A3 & R3); try lia.
    rewrite (bind_ok _ _ (emitted b s2) [] s3).
    2:{ rewrite <- bind_assoc. now rewrite (bind_ok _ _ _ _ _ E3). }
    destruct (close0 k t (here + Z.of_nat width) (out ++ b) q false s3 K1 K3 A3) as (s4 & E4 & K4 & A4 & _).
    { rewrite R3. exact Es. }
    rewrite <- bind_assoc. rewrite (bind_ok _ _ _ _ _ E4).
    exists s4, b, [], (Some (k + 1)). rewrite app_nil_r. split; [reflexivity|]. split; [exact K4|]. split; [exact A4|apply fills_nil].
  - destruct (Pu Vu) as (d & P). rewrite (bind_ok _ _ _ _ _ P). rewrite bind_get. cbv iota.
    set (s2 := set_depth d (set_fwd true s1)) in *.
    assert (Lf : sess_fatal (k + 1) (s_errs (noted false 262 s2)) = false).
    { unfold sess_fatal, noted. cbn [s_errs set_errs lead e_sess]. change (s_sess s2) with (k + 1). rewrite Z.eqb_refl.
      change (s_errs s2) with (s_errs s1). now rewrite (lead_le k) by now apply errs_all. }
    rewrite Lf. cbn [negb andb orb]. set (s3 := noted false 262 s2) in *.
    assert (K3 : core (k + 1) t s3).
    { destruct K'; constructor; try assumption. constructor; [split; [reflexivity|cbn; lia]|assumption]. }
    assert (A3 : at_ here out q s3) by (subst s3 s2; at_tac).
    destruct (add_expr n (k + 1) t T s3 here out q (w_expr w) (w_text w) [] [] (etype_arg (etype_of width)) 0 0 v b)
      as (s4 & b0 & q' & E4 & K4 & A4 & F4 & R4); auto; try lia; try (split; lia); try (intros; congruence).
    cbn [app] in E4. rewrite app_nil_r in E4. rewrite bind_assoc, (bind_ok _ _ _ _ _ E4).
    destruct (moved2 (k + 1) t here (out ++ b0) (q ++ q') (Z.of_nat width) s4 K4 A4) as (s5 & E5 & K5 & A5 & R5); try lia.
    rewrite (bind_ok _ _ _ _ _ E5).
    destruct (close1 k t (here + Z.of_nat width) (out ++ b0) (q ++ q') s5 (mkerr 262 (k + 1) false (s_line s2) (s_file s2)) (s_errs s1) K1 K5 A5)
      as (s6 & E6 & K6 & A6); auto.
    { rewrite R5, R4. reflexivity. }
    rewrite <- bind_assoc. rewrite (bind_ok _ _ _ _ _ E6). exists s6, b0, q', (Some (k + 1)). auto.
Qed.

Lemma emit_str n k t T u s here out q sess width : (1 <= n)%nat -> (1 <= width <= 3)%nat ->
  core k t s -> at_ here out q s -> Forall (fun c => 0 < c < 256 /\ c <> 10 /\ c <> 13) u -> zlen out + zlen u <= 8000000 ->
  0 <= here -> here + zlen u <= 999999999 ->
  exists s' b0 q' x, emit_word C (knot C n) (lit_text u) (etype_of width) sess s = Ok ([], x) s' /\ core k t s' /\
    at_ (here + zlen u) (out ++ b0) (q ++ q') s' /\ fills T (zlen out) q' b0 u.
Proof.
  intros Hn Hw K A F Rm H0 H1. destruct (etype_width width Hw) as (Ez & Ed & Er).
  unfold emit_word. change (hd0 (lit_text u) =? 34) with true. cbv iota.
  assert (Nx : next_expr (lit_text u) EXPR_DELIMS = []).
  { rewrite <- lit_pieces. rewrite <- (app_nil_r (pieces_text _)). apply (next_expr_pieces EXPR_DELIMS ltac:(vm_compute; intuition lia) []).
    - constructor.
    - constructor; [|constructor]. constructor. apply lit_items_ok.
    - right. rewrite lit_pieces. exists 34. eexists. split; [reflexivity|]. unfold blank. lia.
    - now left.
    - discriminate. }
  rewrite Nx, lit_escape, Ed. destruct n as [|n]; [lia|].
  destruct (c06_round_trip C n u s) as (used & Er2). { eapply Forall_impl; [|exact F]. cbn. intros c Hc. lia. }
  rewrite (bind_ok _ _ _ _ _ Er2).
  assert (K1 : core k t (settled used s)) by (unfold settled; destruct used; [core_tac|exact K]).
  assert (A1 : at_ here out q (settled used s)) by (unfold settled; destruct used; [at_tac|exact A]).
  destruct (emit_chars_ok k t q u _ here out K1 A1 F H0 H1 Rm) as (s2 & E2 & K2 & A2 & _).
  rewrite (bind_ok _ _ _ _ _ E2). exists s2, u, [], sess. rewrite app_nil_r. split; [reflexivity|]. split; [exact K2|]. split; [exact A2|apply fills_nil].
Qed.

Lemma number_length width v b : (1 <= width <= 3)%nat -> number_bytes (c_ez80 C) width v = Some b -> zlen b = Z.of_nat width.
Proof.
  intros H. unfold number_bytes. destruct width as [|[|[|[|w]]]]; try lia; [destruct (within _ _ _)|destruct (_ || _)|]; intros E; try discriminate;
    injection E as <-; reflexivity.
Qed.
Lemma data_size_nonneg width l : 0 <= data_size width l.
Proof. unfold data_size. induction l as [|d l IH]; cbn [fold_right]; [lia|]. destruct d as [w|b u a]; [|pose proof (zlen_nonneg u)]; lia. Qed.
Definition bytes_datum (T : table) (here : Z) (width : nat) (d : datum) : option (list Z) :=
  match d with
  | DStr _ u _ => Some u
  | DNum w => match val here T (w_expr w) with Some v => number_bytes (c_ez80 C) width v | None => None end
  end.
Definition size_datum (width : nat) (d : datum) : Z := match d with DStr _ u _ => zlen u | DNum _ => Z.of_nat width end.
Lemma data_bytes_cons T here width d l b : data_bytes (c_wrap C) (c_ez80 C) (key C) T here width (d :: l) = Some b ->
  exists b1 b2, bytes_datum T here width d = Some b1 /\ data_bytes (c_wrap C) (c_ez80 C) (key C) T (here + size_datum width d) width l = Some b2 /\ b = b1 ++ b2.
Proof.
  destruct d as [w|x u y]; cbn [data_bytes bytes_datum size_datum].
  - destruct (val _ _ _) as [v|]; [|discriminate]. destruct (number_bytes _ _ _) as [b1|]; [|discriminate].
    destruct (data_bytes _ _ _ _ _ _ _) as [b2|]; [|discriminate]. intros E. injection E as <-. eauto 6.
  - destruct (data_bytes _ _ _ _ _ _ _) as [b2|]; [|discriminate]. intros E. injection E as <-. eauto 6.
Qed.
Definition one_ok (here : Z) (now : table) (d : datum) : Prop :=
  datum_ok d /\ match d with DNum w => expr_ok (c_wrap C) (key C) taken here now (w_expr w) | _ => True end.
Lemma data_ok_cons here now width d l : data_ok (c_wrap C) (key C) taken here now width (d :: l) ->
  one_ok here now d /\ data_ok (c_wrap C) (key C) taken (here + size_datum width d) now width l.
Proof. unfold one_ok. destruct d; cbn [data_ok size_datum]; tauto. Qed.
Lemma emit_datum n k t T d s here out q sess width b : (20 <= n)%nat -> 1 <= k -> (1 <= width <= 3)%nat ->
  core k t s -> at_ here out q s -> sound C t -> ext C t T -> one_ok here t d -> bytes_datum T here width d = Some b ->
  zlen out + zlen b <= 8000000 -> 0 <= here -> here + size_datum width d <= 999999999 ->
  exists s' b0 q' x, emit_word C (knot C n) (body d) (etype_of width) sess s = Ok ([], x) s' /\ core k t s' /\
    at_ (here + size_datum width d) (out ++ b0) (q ++ q') s' /\ fills T (zlen out) q' b0 b.
Proof.
  intros Hn K1 Hw K A Sd X (O1 & O2) B Rm H0 H1. destruct d as [w|x u y]; cbn [bytes_datum size_datum body datum_ok] in *.
  - destruct (val here T (w_expr w)) as [v|] eqn:V; [|discriminate]. now apply emit_num with (v := v).
  - injection B as <-. apply emit_str; auto; [lia|]. apply O1.
Qed.

Lemma data_loop n k t T width : (20 <= n)%nat -> 1 <= k -> (1 <= width <= 3)%nat -> sound C t -> ext C t T ->
  forall l here out q s sess b rest fuel, l <> [] ->
  core k t s -> at_ here out q s -> data_ok (c_wrap C) (key C) taken here t width l ->
  data_bytes (c_wrap C) (c_ez80 C) (key C) T here width l = Some b ->
  zlen out + zlen b <= 8000000 -> 0 <= here -> here + data_size width l <= 999999999 -> line_over rest -> (length l < fuel)%nat ->
  exists s' b0 q', emit_loop C (knot C n) fuel (etype_of width) sess true (data_text l ++ rest) s = Ok (rest, []) s' /\ core k t s' /\
    at_ (here + data_size width l) (out ++ b0) (q ++ q') s' /\ fills T (zlen out) q' b0 b.
Proof.
  intros Hn K1 Hw Sd X. induction l as [|d l IH]; intros here out q s sess b rest fuel NE K A O B Rm H0 H1 Ov Fu; [congruence|].
  destruct fuel as [|fuel]; [cbn in Fu; lia|].
  apply data_ok_cons in O as (O1 & O2). apply data_bytes_cons in B as (b1 & b2 & B1 & B2 & ->).
  change (data_size width (d :: l)) with (size_datum width d + data_size width l) in *.
  pose proof (data_size_nonneg width l) as Dn. rewrite zlen_app in Rm. pose proof (zlen_nonneg b1) as P1. pose proof (zlen_nonneg b2) as P2.
  assert (Sn : 0 <= size_datum width d) by (destruct d; cbn; unfold zlen; lia).
  destruct (emit_datum n k t T d s here out q sess width b1) as (s1 & c1 & q1 & x & E1 & K2 & A2 & F2); auto; try lia.
  cbn [emit_loop]. destruct l as [|d2 l].
  - cbn [data_text]. cbn [data_bytes] in B2. injection B2 as <-. rewrite app_nil_r.
    rewrite (bind_ok _ _ s (Some (body d), rest, false) s).
    2:{ rewrite extract_datum; auto; [|apply O1]. replace (hd0 rest =? 44) with false; [reflexivity|]. destruct (over_head rest Ov) as [->|H]; [reflexivity|]. unfold line_ender in H. lia. }
    rewrite (bind_ok _ _ _ _ _ E1). cbv beta iota. destruct fuel as [|fuel]; [cbn in Fu; lia|].
    assert (El : emit_loop C (knot C n) (S fuel) (etype_of width) x false rest s1 = Ok (rest, []) s1).
    { cbn [emit_loop]. rewrite (bind_ok _ _ s1 (None, rest, false) s1); [reflexivity|]. now apply extract_end. }
    rewrite (bind_ok _ _ _ _ _ El). exists s1, c1, q1. cbn [data_size fold_right]. rewrite Z.add_0_r. split; [reflexivity|]. auto.
  - assert (Dt : data_text (d :: d2 :: l) ++ rest = datum_text d ++ 44 :: data_text (d2 :: l) ++ rest).
    { cbn [data_text]. rewrite <- !app_assoc. reflexivity. }
    rewrite Dt. rewrite (bind_ok _ _ s (Some (body d), data_text (d2 :: l) ++ rest, true) s).
    2:{ rewrite extract_datum; [reflexivity|apply O1|]. left. eauto. }
    rewrite (bind_ok _ _ _ _ _ E1). cbv beta iota.
    pose proof (proj1 F2) as L12. 
    destruct (IH (here + size_datum width d) (out ++ c1) (q ++ q1) s1 x b2 rest fuel) as (s2 & c2 & q2 & E2 & K3 & A3 & F3); auto; try lia; try discriminate.
    { rewrite zlen_app. unfold zlen in *. lia. } { cbn in *; lia. }
    rewrite (bind_ok _ _ _ _ _ E2). exists s2, (c1 ++ c2), (q1 ++ q2). split; [reflexivity|]. split; [exact K3|].
    rewrite <- !app_assoc in A3. rewrite Z.add_assoc. split; [exact A3|]. apply fills_app; [exact F2|]. rewrite zlen_app in F3. exact F3.
Qed.

(** ** Directives *)
Definition runs (k : Z) (t' T : table) (here' : Z) (out : list Z) (q : list pexpr) (r : res (option text)) (rest : text) (b : list Z) : Prop :=
  exists s' b0 q', r = Ok (Some rest) s' /\ core k t' s' /\ at_ here' (out ++ b0) (q ++ q') s' /\ fills T (zlen out) q' b0 b.
Definition runs1 (k : Z) (t' : table) (here' : Z) (out : list Z) (q : list pexpr) (r : res text) (rest : text) : Prop :=
  exists s', r = Ok rest s' /\ core k t' s' /\ at_ here' out q s'.
Lemma runs_of1 k t' T here' out q m rest s : runs1 k t' here' out q (m s) rest -> runs k t' T here' out q ((r <- m ;; ret (Some r)) s) rest [].
Proof.
  intros (s' & E & K & A). exists s', [], []. rewrite !app_nil_r. rewrite (bind_ok _ _ _ _ _ E). split; [reflexivity|]. split; [exact K|]. split; [exact A|apply fills_nil].
Qed.
Lemma parse_written n k t s w v : (20 <= n)%nat -> core k t s -> known_ok (key C) taken w -> val (s_pc s) t (w_expr w) = Some v ->
  parse_num (knot C n) (w_text w) s = Ok (Some v) (set_depth 0 (set_fwd false s)).
Proof.
  intros Hn K ((_ & W & _ & N & _) & F) V.
  pose proof (parse_known n Hn _ _ s (w_expr w) (w_text w) [] [] [] v K F W N (Forall_nil _) (Forall_nil _) (or_introl eq_refl) V) as P.
  cbn [app] in P. now rewrite app_nil_r in P.
Qed.
Lemma word_nonempty w : written_ok w -> skip_ws (w_text w) <> [].
Proof.
  intros (_ & W & _). destruct (proj2 expression_shape _ _ W) as (_ & B & _). apply begins_head in B as (c & t & -> & B).
  rewrite skip_ws_nonblank by exact B. discriminate.
Qed.
Lemma org_ok n k t s here out q w v rest : (20 <= n)%nat -> core k t s -> at_ here out q s -> known_ok (key C) taken w -> val here t (w_expr w) = Some v -> 0 <= v ->
  line_over rest -> runs1 k t v out q (dir_org (knot C n) (skip_ws (wr w ++ rest)) s) rest.
Proof.
  intros Hn K A Kw V Hv Ov. unfold dir_org. unfold bind at 1. rewrite read_skip, (read_written [] w rest s) by (auto; apply Kw). cbn [rx_ret rx_word rx_ptr].
  rewrite bind_assoc. rewrite (bind_ok _ _ _ _ _ (parse_written n k t s w v Hn K Kw ltac:(rewrite (a_pc _ _ _ _ A); exact V))).
  replace (v <? 0) with false by lia. rewrite bind_upd. cbn [negb orb].
  destruct (skip_ws (w_text w)) eqn:E; [now apply word_nonempty in E; [|apply Kw]|]. cbn [whenM]. rewrite bind_ret.
  eexists. split; [reflexivity|]. split; [core_tac|]. destruct A; constructor; try assumption. reflexivity.
Qed.
Lemma write_n_ok k t here q v : is_byte v -> forall m s out, core k t s -> at_ here out q s -> zlen out + Z.of_nat m <= 8000000 ->
  exists s', write_n m v s = Ok tt s' /\ core k t s' /\ at_ here (out ++ repeat v m) q s'.
Proof.
  intros Hv. induction m as [|m IH]; intros s out K A R.
  - exists s. cbn [repeat]. rewrite app_nil_r. auto.
  - cbn [write_n repeat]. rewrite (bind_ok _ _ s tt (emitted [v] s)).
    2:{ rewrite write_out_emitted; [now rewrite u8_id|]. split; rewrite (a_pos _ _ _ _ A); unfold zlen in *; lia. }
    destruct (IH (emitted [v] s) (out ++ [v])) as (s' & E & K' & A').
    + now apply emitted_core.
    + now apply emitted_at.
    + rewrite zlen_app. change (zlen [v]) with 1. lia.
    + exists s'. rewrite <- app_assoc in A'. auto.
Qed.
Lemma fill_ok n k t s here out q w wv m v rest : (20 <= n)%nat -> core k t s -> at_ here out q s -> known_ok (key C) taken w ->
  match wv with Some w => known_ok (key C) taken w | None => True end -> fill_args (c_wrap C) (key C) t here w wv = Some (m, v) -> line_over rest ->
  zlen out + m <= 8000000 -> 0 <= here -> here + m <= 999999999 ->
  runs1 k t (here + m) (out ++ repeat (v mod 256) (Z.to_nat m)) q
    (dir_fill (knot C n) (skip_ws (wr w ++ match wv with Some w => 44 :: wr w | None => [] end ++ rest)) s) rest.
Proof.
  intros Hn K A Kw Kv Fa Ov Rm H0 H1. unfold fill_args in Fa.
  destruct (val here t (w_expr w)) as [m'|] eqn:Vm; [|discriminate].
  destruct (match wv with Some w => val here t (w_expr w) | None => Some 0 end) as [v'|] eqn:Vv; [|discriminate].
  destruct (_ && _) eqn:Wi in Fa; [|discriminate]. injection Fa as -> ->. unfold within in Wi.
  unfold dir_fill. unfold bind at 1. rewrite read_skip, (read_written [44] w); [|now right|apply Kw|].
  2:{ destruct wv as [w'|]; [right; split; [reflexivity|]; eexists; reflexivity|left; exact Ov]. }
  cbn [rx_ret rx_word rx_ptr].
  rewrite (bind_ok _ _ _ _ _ (parse_written n k t s w m Hn K Kw ltac:(rewrite (a_pc _ _ _ _ A); exact Vm))). cbn [or0].
  set (s1 := set_depth 0 (set_fwd false s)).
  assert (K1 : core k t s1) by (subst s1; core_tac). assert (A1 : at_ here out q s1) by (subst s1; at_tac).
  assert (Rd : exists s2, (w0 <- read_expr (skip_char 44 (skip_ws (match wv with Some w => 44 :: wr w | None => [] end ++ rest))) [] ;;
       v0 <- (if rx_ret w0 then v <- parse_num (knot C n) (rx_word w0) ;; ret (or0 v) else ret 0) ;; ret (w0, v0)) s1 = Ok (mkrx (isSome wv) rest (match wv with Some w => w_text w | None => [] end) false, v) s2 /\ core k t s2 /\ at_ here out q s2).
  { destruct wv as [w'|].
    - cbn [app]. rewrite skip_ws_nonblank by (unfold blank; lia). unfold skip_char. cbn [hd0 tl Z.eqb Pos.eqb].
      rewrite (bind_ok _ _ _ _ _ (read_written [] w' rest s1 (or_introl eq_refl) (proj1 Kv) (or_introl Ov))). cbn [rx_ret rx_word].
      rewrite bind_assoc. rewrite (bind_ok _ _ _ _ _ (parse_written n k t s1 w' v Hn K1 Kv ltac:(rewrite (a_pc _ _ _ _ A1); exact Vv))).
      eexists. split; [reflexivity|]. split; [core_tac|at_tac].
    - cbn [app]. rewrite (over_skip rest Ov). unfold skip_char. replace (hd0 rest =? 44) with false by (destruct (over_head rest Ov) as [->|H]; unfold line_ender in *; lia).
      rewrite (bind_ok _ _ _ _ _ (read_none rest s1 Ov)). injection Vv as <-. exists s1. split; [reflexivity|]. auto. }
  destruct Rd as (s2 & E2 & K2 & A2).
  assert (Split : forall A B F (m : M A) (g : A -> M B) (h : A -> B -> M F) s, (a <- m ;; b <- g a ;; h a b) s = (let* ' (a, b) := (a <- m ;; b <- g a ;; ret (a, b)) in h a b) s).
  { intros A0 B0 F0 m0 g0 h0 s0. unfold bind. destruct (m0 s0); auto. destruct (g0 a s3); auto. }
  rewrite Split. rewrite (bind_ok _ _ _ _ _ E2). cbv beta iota. cbn [rx_ptr].
  replace (m <? 0) with false by lia. replace ((v <? -128) || (255 <? v)) with false by lia. cbn [whenM]. rewrite bind_assoc, bind_ret.
  destruct (moved k t here out q m s2 K2 A2) as (s3 & E3 & K3 & A3 & _); try lia.
  rewrite bind_assoc. rewrite (bind_ok _ _ _ _ _ E3). unfold add_datasize. rewrite !bind_assoc, bind_get, bind_upd.
  set (s4 := set_datasize _ s3). rewrite land_255.
  destruct (write_n_ok k t (here + m) q (v mod 256) ltac:(split; lia) (Z.to_nat m) s4 out) as (s5 & E5 & K5 & A5).
  - subst s4. core_tac.
  - subst s4. at_tac.
  - lia.
  - rewrite (bind_ok _ _ _ _ _ E5). exists s5. auto.
Qed.

(** ** Labels and their values *)
Lemma label_set k t n v s l : core k t s -> tfind (key C n) (s_labels s) = Some l ->
  exists s', set_label_value (key C n) v s = Ok tt s' /\ (forall t0, (forall m, eqbl (key C m) (key C n) = false -> assoc (key C) t m = assoc (key C) t0 m) -> core k ((n, v) :: t0) s') /\
    (forall here out q, at_ here out q s -> at_ here out q s').
Proof.
  intros K L. unfold set_label_value. rewrite bind_get, L. eexists. split; [reflexivity|]. split.
  - intros t0 H. pose proof (k_labels _ _ _ _ _ _ K) as K1. pose proof (k_apart _ _ _ _ _ _ K) as K2. destruct K. constructor; try assumption.
    + intros m. cbn [s_labels set_labels]. rewrite tfind_tset, assoc_cons.
      destruct (eqbl (key C m) (key C n)) eqn:E; [reflexivity|]. now rewrite K1, H.
    + intros m Hm. rewrite assoc_cons. destruct (eqbl (key C m) (key C n)) eqn:E.
      * apply eqbl_eq in E. specialize (K1 n). rewrite L in K1. rewrite <- (assoc_key C t m n E), (K2 m Hm) in K1. discriminate.
      * rewrite <- (H m E). now apply K2.
  - intros here out q A. at_tac.
Qed.
Lemma label_new k t n s here out q : core k t s -> at_ here out q s -> taken n = false -> lookup t n = None -> 0 <= here <= 999999999 -> c_counter C = false ->
  exists s', (pc <- get s_pc ;; l <- add_label C n (wrap32 pc) ;; upd (set_last_label l)) s = Ok tt s' /\ core k ((n, here) :: t) s' /\ at_ here out q s' /\
    s_last_label s' = Some (key C n).
Proof.
  intros K A T L H Ct. rewrite bind_get. rewrite (a_pc _ _ _ _ A). replace (wrap32 here) with here by (unfold wrap32; lia).
  assert (Ln : tfind (key C n) (s_labels s) = None).
  { pose proof (k_labels _ _ _ _ _ _ K n) as X. unfold AsmSpec.lookup in L. destruct (assoc (key C) params n); [discriminate|]. rewrite L in X. now destruct (tfind _ _). }
  assert (Na : find_arg (key C n) frame = None).
  { pose proof (k_frame _ _ _ _ _ _ K n) as X. destruct (find_arg _ frame); [|reflexivity]. destruct X as ((v & Ev & _) & _). unfold AsmSpec.lookup in L. now rewrite Ev in L. }
  unfold add_label. rewrite Ct. rewrite bind_assoc. rewrite (bind_ok _ _ s None s).
  2:{ apply search_none; rewrite key_idem; [now rewrite (k_args _ _ _ _ _ _ K)|]. rewrite (k_defines _ _ _ _ _ _ K). rewrite taken_find in T. unfold isSome in T. now destruct (tfind _ D). }
  rewrite bind_assoc, bind_get, Ln. rewrite !bind_assoc, bind_get, !bind_assoc, bind_get, !bind_assoc, bind_upd, bind_ret.
  eexists. split; [reflexivity|]. split; [|split; [at_tac|reflexivity]].
  pose proof (k_labels _ _ _ _ _ _ K) as K1. pose proof (k_apart _ _ _ _ _ _ K) as K2.
  assert (Cn : assoc (key C) consts n = None).
  { pose proof (k_frame _ _ _ _ _ _ K n) as X. rewrite Na in X. rewrite <- X. unfold AsmSpec.lookup in L. now destruct (assoc (key C) params n). }
  destruct K. constructor; try assumption.
  - intros m. cbn [s_labels set_labels set_last_label]. rewrite tfind_tset, assoc_cons.
    destruct (eqbl (key C m) (key C n)) eqn:E; [reflexivity|]. apply K1.
  - intros m Hm. rewrite assoc_cons. destruct (eqbl (key C m) (key C n)) eqn:E; [|now apply K2].
    apply eqbl_eq in E. elim Hm. rewrite <- Cn. now apply assoc_key.
Qed.
Lemma label_there k t n here s : core k ((n, here) :: t) s -> exists l, tfind (key C n) (s_labels s) = Some l.
Proof.
  intros K. pose proof (k_labels _ _ _ _ _ _ K n) as X. rewrite assoc_cons, eqbl_refl in X. destruct (tfind _ _) as [l|]; [now exists l|discriminate].
Qed.
Lemma equ_ok n k t m s here out q w v rest : (20 <= n)%nat -> core k ((m, here) :: t) s -> at_ here out q s -> s_last_label s = Some (key C m) ->
  known_ok (key C) taken w -> val here ((m, here) :: t) (w_expr w) = Some v -> line_over rest ->
  runs1 k ((m, v) :: t) here out q (dir_equ (knot C n) (skip_ws (wr w ++ rest)) s) rest /\
  runs1 k ((m, v) :: t) here out q (equate (knot C n) (wr w ++ rest) s) rest.
Proof.
  intros Hn K A Ll Kw V Ov.
  assert (V' : val (s_pc s) ((m, here) :: t) (w_expr w) = Some v) by (rewrite (a_pc _ _ _ _ A); exact V).
  pose proof (parse_written n k _ s w v Hn K Kw V') as P. set (s1 := set_depth 0 (set_fwd false s)) in *.
  assert (K1 : core k ((m, here) :: t) s1) by (subst s1; core_tac). assert (A1 : at_ here out q s1) by (subst s1; at_tac).
  destruct (label_there k t m here s1 K1) as (l & L). destruct (label_set k _ m v s1 l K1 L) as (s2 & E2 & K2 & A2).
  specialize (K2 t). assert (K3 : core k ((m, v) :: t) s2).
  { apply K2. intros x E. rewrite assoc_cons. now rewrite E. }
  assert (Ll1 : s_last_label s1 = Some (key C m)) by exact Ll.
  split.
  - unfold dir_equ. unfold bind at 1. rewrite read_skip, (read_written [] w rest s) by (auto; apply Kw). cbn [rx_ret rx_word rx_ptr].
    rewrite (bind_ok _ _ _ _ _ P). rewrite bind_get. change (s_fwd s1) with false. cbv iota. rewrite bind_assoc, bind_get, Ll1. cbn [or0].
    rewrite (bind_ok _ _ _ _ _ E2). exists s2. auto.
  - unfold equate. rewrite (bind_ok _ _ _ _ _ (read_written [] w rest s (or_introl eq_refl) (proj1 Kw) (or_introl Ov))). cbn [rx_ret rx_word rx_ptr].
    rewrite (bind_ok _ _ _ _ _ P). rewrite bind_assoc, bind_get, Ll1. rewrite (bind_ok _ _ _ _ _ E2). exists s2. auto.
Qed.
End Data.
