(** The assembler follows the reference assembler of AsmSpec: one statement at a time. *)
From Verif Require Import Base BaseProofs State MonadProofs UtilsModel ErrorsModel StorageModel ParserModel PassTwoModel
  PreopModel PassOneModel DirectiveModel Knot OpcodeTables UtilsSpec UtilsProofs StorageProofs PassTwoSpec PassTwoProofs
  ParserSpec ParserProofs ParserProps InstrSpec MatchSpec AsmSpec AsmExpand DefineProofs.

Definition err_ok (k : Z) (e : err) : Prop := e_code e = 262 /\ 1 <= e_sess e <= k.
(** The problems noted: the latest first, none of a later session than those before it. *)
Fixpoint errs_ok (k : Z) (l : list err) : Prop :=
  match l with [] => True | e :: l' => err_ok k e /\ errs_ok (e_sess e) l' end.
(** What is known about the depth to which conditionals are nested. *)
Class Level := level : Z -> Prop.
(** The directories where included files are looked for; the buffer chosen and the buffers of [clr], [wr] and [run]. *)
Class Dirs := mkdirs { dirs : list text; pads : Z * list (option text) }.
Definition fresh_dirs (l : list text) : Dirs := mkdirs l (0, repeat None 10).
(** The argument sets of the macros being expanded, innermost first. *)
Class Frame := frame : list (nat * list (text * define)).
Definition no_frame : Frame := [].
(** The symbols made by #define that have a value of their own. *)
Class Consts := consts : table.
Definition no_consts : Consts := [].
Record at_ {lv : Level} {dr : Dirs} (here : Z) (out : list Z) (q : list pexpr) (s : st) : Prop := mkat {
  a_pc : s_pc s = here;
  a_mem : s_mem s = out;
  a_pos : s_pos s = zlen out;
  a_q : s_exprs s = q;
  a_level : level (s_iflevel s);
  a_search : s_incdirs s = dirs;
  a_pads : (s_curbuf s, s_bufs s) = pads }.

(** ** Error sessions *)
Lemma lead_le k l : Forall (err_ok k) l -> lead (k + 1) l = [].
Proof. destruct 1 as [|e l (_ & H) _]; [reflexivity|]. cbn. replace (e_sess e =? k + 1) with false by lia. reflexivity. Qed.
Lemma unlead_le k l : Forall (err_ok k) l -> unlead (k + 1) l = l.
Proof. destruct 1 as [|e l (_ & H) _]; [reflexivity|]. cbn. replace (e_sess e =? k + 1) with false by lia. reflexivity. Qed.
Lemma replay_le k l : Forall (err_ok k) l -> replay_up (k + 1) l = l.
Proof. destruct 1 as [|e l (_ & H) _]; [reflexivity|]. cbn. replace (e_sess e =? k + 1) with false by lia. reflexivity. Qed.
Lemma errs_weak k k' l : k <= k' -> errs_ok k l -> errs_ok k' l.
Proof. destruct l as [|e l]; [auto|]. intros H ((A & B) & E). split; [|exact E]. split; [exact A|lia]. Qed.
Lemma errs_up k l : errs_ok k l -> errs_ok (k + 1) l.
Proof. apply errs_weak. lia. Qed.
Lemma errs_all l : forall k, errs_ok k l -> Forall (err_ok k) l.
Proof.
  induction l as [|e l IH]; intros k H; [constructor|]. destruct H as ((A & B) & E). constructor; [now split|].
  eapply Forall_impl; [|exact (IH _ E)]. intros x (X1 & X2). split; [exact X1|lia].
Qed.
(** The problems of a session that ends become those of the one around it. *)
Lemma errs_close k l : 1 <= k -> errs_ok (k + 1) l -> errs_ok k (unlead (k + 1) (replay_up (k + 1) l)).
Proof.
  intros K H. assert (G : errs_ok k (replay_up (k + 1) l) /\ unlead (k + 1) (replay_up (k + 1) l) = replay_up (k + 1) l).
  { revert H. induction l as [|e l IH]; intros H; [now split|]. destruct H as ((A & B) & E). cbn [replay_up]. destruct (Z.eqb_spec (e_sess e) (k + 1)) as [Q|Q].
    - rewrite Q in E. destruct (IH E) as (G1 & _). cbn [errs_ok unlead e_sess e_code]. replace (k + 1 - 1 =? k + 1) with false by lia.
      replace (k + 1 - 1) with k by lia. split; [|reflexivity]. split; [split; cbn; [exact A|lia]|exact G1].
    - cbn [errs_ok unlead]. replace (e_sess e =? k + 1) with false by lia. split; [|reflexivity]. split; [split; [exact A|lia]|exact E]. }
  destruct G as (G1 & ->). exact G1.
Qed.

Lemma splice_end out b : splice out (length out) b = out ++ b.
Proof.
  unfold splice. rewrite firstn_all, Nat.sub_diag. cbn. rewrite skipn_all2 by lia. now rewrite app_nil_r.
Qed.
Lemma emitted_at {lv : Level} {dr : Dirs} here out q b s : at_ here out q s -> at_ here (out ++ b) q (emitted b s).
Proof.
  intros [H1 H2 H3 H4 H5 H6]. constructor; cbn; auto.
  - rewrite H2, H3. unfold zlen. rewrite Nat2Z.id. apply splice_end.
  - rewrite H3. now rewrite zlen_app.
Qed.
Lemma lor_small a b : 0 <= a < 256 -> 0 <= b < 256 -> 0 <= Z.lor a b < 256.
Proof.
  intros Ha Hb. split; [apply Z.lor_nonneg; lia|].
  destruct (Z.eq_dec (Z.lor a b) 0) as [->|Hn]; [lia|].
  assert (H : 0 < Z.lor a b) by (pose proof (Z.lor_nonneg a b); lia).
  apply Z.log2_lt_pow2 with (b := 8); [exact H|]. rewrite Z.log2_lor by lia.
  apply Z.max_lub_lt; (destruct (Z.eq_dec a 0) as [->|]; destruct (Z.eq_dec b 0) as [->|]; try (cbn; lia); apply Z.log2_lt_pow2; lia).
Qed.
Lemma splice_mid pre b0 more b : length b0 = length b -> splice (pre ++ b0 ++ more) (length pre) b = pre ++ b ++ more.
Proof.
  intros L. unfold splice. rewrite firstn_app, Nat.sub_diag, firstn_all, firstn_O, app_nil_r.
  replace (length pre - length (pre ++ b0 ++ more))%nat with O by (rewrite app_length; lia). cbn [repeat app].
  do 2 f_equal. rewrite <- L. rewrite skipn_app, skipn_all2 by lia. cbn.
  replace (length pre + length b0 - length pre)%nat with (length b0) by lia.
  now rewrite skipn_app, skipn_all, Nat.sub_diag.
Qed.


Section Asm.
Context {lv : Level} {dr : Dirs} {Pm : Params} {fr : Frame} {Cs : Consts}.
Variable C : cfg.
Variable D : list (text * define).
Variable ops : list opcode.
Hypothesis normal : c_normal C = true.
Hypothesis no_counter : c_counter C = false.
Hypothesis D_names : forall w, ~ name_start (hd0 w) -> tfind (key C w) D = None.

Definition taken (w : text) : bool := existsb (eqbl (key C w)) (map fst D).
Lemma taken_find w : taken w = isSome (tfind (key C w) D).
Proof.
  unfold taken. clear. induction D as [|(k, d) D' IH]; [reflexivity|]. cbn [map fst existsb tfind].
  destruct (eqbl (key C w) k); [reflexivity|exact IH].
Qed.
Notation assoc := (assoc (key C)).
Notation lookup := (lookup (key C)).
Notation val := (val (c_wrap C) (key C)).

(** The arguments are the values of the parameters, as [eval] writes them. *)
Definition arg_is (r : dref) (v : Z) : Prop :=
  exists d, match r with RL id k => match find_set id frame with Some t => tfind k t | None => None end | RG _ => None end = Some d /\
  d_args d = [] /\ d_contents d = Some (hex_text v) /\ -2147483647 <= v <= 2147483647.
Definition frame_ok : Prop := forall n,
  match find_arg (key C n) frame with
  | Some r => (exists v, assoc params n = Some v /\ arg_is r v) /\ assoc consts n = None
  | None => assoc params n = assoc consts n
  end.
(** A constant is defined as an expression over constants, and that expression has the value wherever it is; at
    most so many definitions and parentheses are nested in it. *)
Inductive const_is : text -> nat -> Z -> Prop :=
  | Const n d w1 te w2 e need vals v :
      assoc consts n = Some v -> tfind (key C n) D = Some d -> key C n <> zs "__LINE" -> key C n <> zs "__FILE" ->
      d_args d = [] -> d_contents d = Some (w1 ++ te ++ w2) ->
      Forall blank w1 -> writes e te -> Forall blank w2 -> Forall plain_char te ->
      (forall m, mentions m e -> const_is m (need m) (vals m)) ->
      (forall here, value (c_wrap C) here (fun m => Some (vals m)) e = Val v) ->
      const_is n (S (wt need e)) v.
Definition consts_ok : Prop := forall n v, assoc consts n = Some v -> exists k, (k <= 5)%nat /\ const_is n k v.
(** ** The state between statements *)
Record core (k : Z) (t : table) (s : st) : Prop := mkcore {
  k_labels : forall n, option_map l_value (tfind (key C n) (s_labels s)) = assoc t n;
  k_args : s_args s = frame;
  k_defines : s_defines s = D;
  k_ops : s_opcodes s = ops;
  k_adl : s_adl s = c_ez80 C;
  k_erroc : s_erroc s = false;
  k_exitc : s_exitc s = 0;
  k_outfiles : s_outfiles s = [];
  k_outputs : s_outputs s = [];
  k_printed : s_printed s = [];
  k_sess : s_sess s = k;
  k_errs : errs_ok k (s_errs s);
  k_ids : Forall (fun x => (fst x < s_nextid s)%nat) frame;
  k_frame : frame_ok;
  k_consts : consts_ok;
  k_apart : forall n, assoc consts n <> None -> assoc t n = None;
  k_pnames : forall w, ~ name_start (hd0 w) -> assoc params w = None }.
(** Facts about a symbol table. *)
Definition sound (t : table) : Prop :=
  (forall n v, assoc t n = Some v -> 0 <= v <= 999999999) /\ (forall w, ~ name_start (hd0 w) -> assoc t w = None).
Definition ext (t T : table) : Prop := forall n v, assoc t n = Some v -> assoc T n = Some v.
Lemma ext_lookup t T n v : ext t T -> lookup t n = Some v -> lookup T n = Some v.
Proof. unfold AsmSpec.lookup. intros X. destruct (assoc params n); [auto|apply X]. Qed.

Ltac core_tac := match goal with H : core _ _ _ |- core _ _ _ => destruct H; constructor; assumption end.
Ltac at_tac := match goal with H : at_ _ _ _ _ |- at_ _ _ _ _ => destruct H; constructor; assumption end.

(** ** Evaluating *)
Lemma mentions_names n : (forall t, term_mentions n t -> In n (term_names t)) /\ (forall e, mentions n e -> In n (names_of e)).
Proof.
  apply term_expr_ind.
  - intros g a. destruct a; cbn; intros H; try easy. now left.
  - intros g e H. exact H.
  - intros t H. exact H.
  - intros e He o t Ht [H|H]; cbn; apply in_app_iff; [left; now apply He|right; now apply Ht].
Qed.
Definition free (e : expr) : Prop := forallb (usable (key C) taken) (names_of e) = true.
Lemma const_meaning k t s n j v : core k t s -> const_is n j v -> meaning C s n j v.
Proof.
  intros K. induction 1 as [n d w1 te w2 e need vals v Ec Ed NL NF Da Dc B1 W B2 Pl Hm IH Hv].
  pose proof (k_frame _ _ _ K n) as Fr. pose proof (k_labels _ _ _ K n) as L. rewrite (k_apart _ _ _ K n) in L by congruence.
  apply (M_define C s n (RG (key C n)) d w1 te w2 e need vals v); auto.
  - right. rewrite (k_args _ _ _ K). destruct (find_arg (key C n) frame); [destruct Fr; congruence|]. split; [reflexivity|].
    split; [now destruct (tfind (key C n) (s_labels s))|auto].
  - cbn [lookup_ref]. now rewrite (k_defines _ _ _ K).
Qed.
Lemma name_meaning k t s e : core k t s -> free e -> forall m, In m (names_of e) ->
  exists j, ((j <= 5)%nat /\ (params = [] -> j = 0%nat)) /\ (resolves C s (lookup t) m \/ exists v, lookup t m = Some v /\ meaning C s m j v).
Proof.
  intros K F m I.
  unfold free in F. rewrite forallb_forall in F. specialize (F m I). unfold usable in F.
  pose proof (k_frame _ _ _ K m) as Fr. unfold resolves, AsmSpec.lookup. rewrite (k_args _ _ _ K).
  destruct (find_arg (key C m) frame) as [r|] eqn:Fa.
  - exists 1%nat. destruct Fr as ((v & Ev & d & Ed & Da & Dc & Vb) & _). split; [split; [lia|intros Ep; rewrite Ep in Ev; discriminate]|].
    right. rewrite Ev. exists v. split; [reflexivity|].
    destruct (hex_written v Vb) as (W & Pl & Nm & Wt & Vl). rewrite <- (Wt (fun _ => 0%nat)).
    apply (M_define C s m r d [] (hex_text v) [] (hex_expr v) (fun _ => 0%nat) (fun _ => 0)); auto.
    + left. now rewrite (k_args _ _ _ K).
    + rewrite <- Ed. destruct r; [discriminate|]. cbn [lookup_ref]. now rewrite (k_args _ _ _ K).
    + cbn [app]. now rewrite app_nil_r.
    + intros x Hx. now apply Nm in Hx.
  - rewrite Fr. destruct (assoc consts m) as [v|] eqn:Ec.
    + destruct (k_consts _ _ _ K m v Ec) as (j & Hj & Ci). exists j. split; [split; [exact Hj|intros Ep; rewrite Ep in Fr; discriminate]|].
      right. exists v. split; [reflexivity|]. now apply (const_meaning k t).
    + exists 0%nat. split; [split; [lia|reflexivity]|]. left. split; [reflexivity|]. pose proof (k_labels _ _ _ K m) as K1.
      rewrite Fr in F. cbn [isSome] in F. rewrite orb_false_r in F. apply Bool.negb_true_iff in F.
      destruct (tfind (key C m) (s_labels s)) as [l|]; cbn in K1; rewrite <- K1; [now exists l|].
      split; [reflexivity|]. rewrite (k_defines _ _ _ K). rewrite taken_find in F. unfold isSome in F. now destruct (tfind (key C m) D).
Qed.
Lemma choose_need (Q : text -> nat -> Prop) l : (forall m, In m l -> exists j, Q m j) -> exists f, forall m, In m l -> Q m (f m).
Proof.
  intros H. induction l as [|a l IH]; [exists (fun _ => 0%nat); intros m []|].
  destruct (H a (or_introl eq_refl)) as (j & Hj). destruct IH as (f & Hf); [intros m Hm; apply H; now right|].
  exists (fun m => if eqbl a m then j else f m). intros m Hm. destruct (eqbl a m) eqn:E; [apply eqbl_eq in E; now subst|].
  destruct Hm as [->|Hm]; [now rewrite (proj2 (eqbl_eq m m) eq_refl) in E|now apply Hf].
Qed.
Lemma resolves_all k t s e : core k t s -> free e -> nest e <= nest_limit -> exists need, (wt need e <= 19)%nat /\ forall m, mentions m e ->
  resolves C s (lookup t) m \/ exists v, lookup t m = Some v /\ meaning C s m (need m) v.
Proof.
  intros K F N.
  destruct (choose_need (fun m j => ((j <= 5)%nat /\ (params = [] -> j = 0%nat)) /\ (resolves C s (lookup t) m \/ exists v, lookup t m = Some v /\ meaning C s m j v)) (names_of e)) as (need & Hn).
  - intros m Hm. exact (name_meaning k t s e K F m Hm).
  - assert (Hm : forall m, mentions m e -> In m (names_of e)) by (intros m; apply (proj2 (mentions_names m))).
    exists (fun m => if existsb (eqbl m) (names_of e) then need m else 0%nat).
    assert (Ein : forall m, existsb (eqbl m) (names_of e) = true <-> In m (names_of e)).
    { intros m. rewrite existsb_exists. split; [intros (x & Hx & E); apply eqbl_eq in E; now subst|intros H; exists m; split; [exact H|now apply eqbl_eq]]. }
    split; [|intros m H; rewrite (proj2 (Ein m) (Hm m H)); apply (Hn m (Hm m H))].
    pose proof (proj2 wt_nest e) as W. unfold nest_limit in N. destruct params as [|x p] eqn:Ep.
    + rewrite wt_none; [lia|]. intros m H. rewrite (proj2 (Ein m) (Hm m H)). now apply (Hn m (Hm m H)).
    + match goal with |- (wt ?f e <= 19)%nat => assert (H : (wt f e <= 5 + wt no_need e)%nat) end; [|lia]. apply wt_most. intros m.
      destruct (existsb _ _) eqn:E; [|lia]. apply Ein in E. apply (Hn m E).
Qed.
Lemma core_sessions k t s : core k t s -> sessions_ok s.
Proof. intros K. unfold sessions_ok. rewrite (k_sess _ _ _ K). eapply Forall_impl; [|exact (errs_all _ _ (k_errs _ _ _ K))]. intros x (_ & H). lia. Qed.
Section Eval.
Variable n : nat.
Hypothesis deep : (20 <= n)%nat.
Notation R := (knot C n).

Lemma parse_known k t s e te w1 w2 rest v : core k t s -> free e -> writes e te -> nest e <= nest_limit ->
  Forall blank w1 -> Forall blank w2 -> line_end rest -> val (s_pc s) t e = Some v ->
  parse_num R (w1 ++ te ++ w2 ++ rest) s = Ok (Some v) (set_depth 0 (set_fwd false s)).
Proof.
  intros K F W N B1 B2 L V. destruct (resolves_all k t s e K F N) as (need & Nw & Rs).
  pose proof (named_value C n s (lookup t) need e te w1 w2 rest W B1 B2 L (k_erroc _ _ _ K) (core_sessions k t s K) Nw ltac:(lia) Rs) as H.
  cbv zeta in H. unfold AsmSpec.val in V. destruct (value _ _ _ e) as [x| |]; try discriminate. now injection V as ->.
Qed.
Lemma parse_unknown k t s e te w1 w2 rest : core k t s -> free e -> writes e te -> nest e <= nest_limit ->
  Forall blank w1 -> Forall blank w2 -> line_end rest -> value (c_wrap C) (s_pc s) (lookup t) e = Err 262 ->
  exists d, parse_num R (w1 ++ te ++ w2 ++ rest) s = Ok None (noted false 262 (set_depth d (set_fwd true s))).
Proof.
  intros K F W N B1 B2 L V. destruct (resolves_all k t s e K F N) as (need & Nw & Rs).
  pose proof (named_value C n s (lookup t) need e te w1 w2 rest W B1 B2 L (k_erroc _ _ _ K) (core_sessions k t s K) Nw ltac:(lia) Rs) as H.
  cbv zeta in H. rewrite V in H. exact H.
Qed.
End Eval.
Lemma val_cases t T here e v : ext t T -> val here T e = Some v -> val here t e = Some v \/ value (c_wrap C) here (lookup t) e = Err 262.
Proof.
  intros X V. unfold AsmSpec.val in *.
  destruct (proj2 (value_fewer (c_wrap C) here (lookup t) (lookup T) (fun n v => ext_lookup t T n v X)) e) as [E|E]; [left|now right].
  now rewrite E.
Qed.

(** ** Writing bytes *)
Lemma emitted_core k t b s : core k t s -> core k t (emitted b s).
Proof. intros K. core_tac. Qed.

(** ** Encoding of operands, by the kind of slot *)
Definition enc (ty : arg_type) (here size orv v : Z) : option (list Z) :=
  match ty with
  | ARG_NUM_8 => number_bytes (c_ez80 C) 1 v
  | ARG_NUM_16 => number_bytes (c_ez80 C) 2 v
  | ARG_NUM_24 => number_bytes (c_ez80 C) 3 v
  | ARG_ADDR_OFFSET => operand_bytes (c_ez80 C) false here size (ch "%") v
  | ARG_IX_IY_OFFSET => operand_bytes (c_ez80 C) false here size (ch "@") v
  | ARG_BIT_NUM => if within 0 v 7 then Some [Z.lor (8 * v) orv] else None
  | ARG_RST => operand_bytes (c_ez80 C) false here size (ch "#") v
  end.
Lemma write_enc ty size orv v b s : enc ty (s_pc s) size orv v = Some b -> room (zlen b) s -> 0 <= size <= 255 -> is_byte orv ->
  write_arg C v ty size orv s = Ok tt (emitted b s).
Proof.
  intros E Rm S O. destruct ty; cbn [enc] in E.
  - unfold number_bytes, within in E. destruct ((-128 <=? v) && (v <=? 255)) eqn:W; [|discriminate]. injection E as <-.
    rewrite write_arg_8 by exact Rm. replace ((v <? -128) || (255 <? v)) with false by lia. reflexivity.
  - unfold number_bytes, within in E. destruct (negb (c_ez80 C) || _) eqn:W; [|discriminate]. injection E as <-.
    rewrite write_arg_16 by exact Rm. replace (c_ez80 C && ((v <? -32768) || (65535 <? v))) with false by (destruct (c_ez80 C); cbn in *; lia). reflexivity.
  - injection E as <-. rewrite write_arg_24 by exact Rm. cbn [le]. now rewrite Z.div_div by lia.
  - unfold operand_bytes, within in E. change (ch "%") with 37 in E. change (ch "*") with 42 in E. change (ch "&") with 38 in E. cbn [Z.eqb Pos.eqb] in E.
    pose proof (write_arg_jump C v size orv s) as J. cbv zeta in J. unfold space in J.
    destruct (_ && _) eqn:W in E; [|discriminate]. injection E as <-. rewrite J by assumption. rewrite W. reflexivity.
  - unfold operand_bytes, within in E. change (ch "@") with 64 in E. change (ch "*") with 42 in E. change (ch "&") with 38 in E. change (ch "%") with 37 in E. cbn [Z.eqb Pos.eqb] in E.
    destruct (_ && _) eqn:W in E; [|discriminate]. injection E as <-. rewrite write_arg_index by exact Rm. rewrite W. reflexivity.
  - unfold within in E. destruct (_ && _) eqn:W in E; [|discriminate]. injection E as <-. rewrite write_arg_bit by exact Rm. rewrite W.
    rewrite (Z.mul_comm v 8). rewrite u8_id; [reflexivity|]. apply lor_small; [lia|exact O].
  - unfold operand_bytes in E. change (ch "@") with 64 in E. change (ch "*") with 42 in E. change (ch "&") with 38 in E. change (ch "%") with 37 in E. change (ch "#") with 35 in E. cbn [Z.eqb Pos.eqb] in E.
    destruct (memb v _) eqn:W; [|discriminate]. injection E as <-. rewrite write_arg_rst by exact Rm. unfold rst_ok. rewrite W. now rewrite Z.add_comm.
Qed.
Lemma enc_length ty here size orv v b : enc ty here size orv v = Some b -> length b = slot ty.
Proof.
  destruct ty; cbn [enc slot]; unfold number_bytes, operand_bytes; intros E;
  change (ch "@") with 64 in E; change (ch "*") with 42 in E; change (ch "&") with 38 in E; change (ch "%") with 37 in E; change (ch "#") with 35 in E;
  cbn [Z.eqb Pos.eqb] in E; cbv zeta in E;
  repeat match type of E with
  | (if ?c then _ else _) = _ => destruct c
  end; try discriminate; congruence || (injection E as <-; reflexivity).
Qed.

End Asm.

(** ** What the second pass does to the bytes of the first *)
Section Second.
Variable C : cfg.
Variable D : list (text * define).
Variable ops : list opcode.
Hypothesis D_names : forall w, ~ name_start (hd0 w) -> tfind (key C w) D = None.
Variable n2 : nat.
Hypothesis deep2 : (20 <= n2)%nat.
Notation core := (@core no_params no_frame no_consts C D ops).
Notation val := (@val no_params (c_wrap C) (key C)).
Notation free := (@free no_params C D).
Notation enc := (enc C).
Ltac core_tac := match goal with H : core _ _ _ |- core _ _ _ => destruct H; constructor; assumption end.
(** No macro is being expanded any more. *)
Definition ready (T : table) (s : st) : Prop := core 1 T s /\ s_errs s = [].
Definition fills (T : table) (pos : Z) (q : list pexpr) (b0 b : list Z) : Prop :=
  length b0 = length b /\
  forall pre more s, zlen pre = pos -> ready T s -> s_mem s = pre ++ b0 ++ more ->
  exists s', second_pass_exprs C (knot C n2) q s = Ok tt s' /\ ready T s' /\ s_mem s' = pre ++ b ++ more.
Lemma fills_nil T pos b : fills T pos [] b b.
Proof. split; [reflexivity|]. intros pre more s _ K M. now exists s. Qed.
Lemma second_app q1 q2 s : second_pass_exprs C (knot C n2) (q1 ++ q2) s =
  (second_pass_exprs C (knot C n2) q1 ;;; second_pass_exprs C (knot C n2) q2) s.
Proof.
  revert s. induction q1 as [|e q1 IH]; intros s; [reflexivity|]. cbn [second_pass_exprs app].
  rewrite bind_assoc. unfold bind at 1 2. destruct (second_pass_expr C (knot C n2) e s); auto.
Qed.
Lemma fills_app T pos q1 q2 a1 a2 b1 b2 : fills T pos q1 a1 b1 -> fills T (pos + zlen a1) q2 a2 b2 ->
  fills T pos (q1 ++ q2) (a1 ++ a2) (b1 ++ b2).
Proof.
  intros (L1 & H1) (L2 & H2). split; [rewrite !app_length; lia|].
  intros pre more s P K M. rewrite <- app_assoc in M.
  destruct (H1 pre (a2 ++ more) s P K M) as (s1 & E1 & K1 & M1).
  rewrite app_assoc in M1.
  destruct (H2 (pre ++ b1) more s1) as (s2 & E2 & K2 & M2); auto.
  { rewrite zlen_app. unfold zlen in *. lia. }
  exists s2. rewrite second_app, (bind_ok _ _ _ _ _ E1). split; [exact E2|]. split; [exact K2|].
  now rewrite M2, <- !app_assoc.
Qed.
Lemma fills_length T pos q a b : fills T pos q a b -> zlen a = zlen b.
Proof. intros (L & _). unfold zlen. lia. Qed.

(** One queued expression. *)
Lemma fills_one T ty here size orv v b b0 e te w1 w2 pos ln reus f :
  writes e te -> nest e <= 19 -> Forall blank w1 -> Forall blank w2 -> free e -> val here T e = Some v ->
  enc ty here size orv v = Some b -> ty <> ARG_RST -> 0 <= size <= 255 -> is_byte orv -> 0 <= pos -> pos + zlen b <= 8000000 ->
  length b0 = length b ->
  fills T pos [mkpexpr here ln reus pos (w1 ++ te ++ w2) ty f size orv] b0 b.
Proof.
  intros W N B1 B2 F V E NR S O P Rm L. split; [exact L|]. intros pre more s Pre (K & Er) M.
  cbn [second_pass_exprs]. unfold second_pass_expr. cbn [x_pc x_line x_file x_reus x_expr x_type x_pos x_size x_or].
  unfold set_curr_reusable. 
  set (s1 := set_curr_reus (reus + 1) (set_file f (set_line ln (set_pc here s)))).
  assert (K1 : core 1 T s1) by (subst s1; core_tac).
  pose proof (@parse_known no_params no_frame no_consts C D ops D_names n2 deep2 1 T s1 e te w1 w2 [] v K1 F W N B1 B2 (or_introl eq_refl)) as Pn.
  assert (Pc : s_pc s1 = here) by reflexivity. rewrite Pc in Pn. specialize (Pn V). rewrite app_nil_r in Pn.
  set (s2 := set_pos pos (set_depth 0 (set_fwd false s1))) in *.
  assert (Wr : write_arg C v ty size orv s2 = Ok tt (emitted b s2)).
  { apply write_enc; auto. split; cbn; lia. }
  exists (emitted b s2). split; [|split; [split|]].
  - rewrite !bind_assoc, !bind_upd. rewrite !bind_assoc, !bind_upd. rewrite !bind_assoc, bind_upd. rewrite !bind_assoc, bind_upd. fold s1.
    rewrite (bind_ok _ _ _ tt (emitted b s2)); [reflexivity|].
    rewrite (bind_ok _ _ _ _ _ Pn). destruct ty; try (now rewrite bind_upd); congruence.
  - apply emitted_core. subst s2 s1. core_tac.
  - exact Er.
  - cbn. rewrite M. replace (Z.to_nat pos) with (length pre) by (unfold zlen in Pre; lia). now apply splice_mid.
Qed.

End Second.

Section Waiting.
Context {lv : Level} {dr : Dirs} {Pm : Params} {fr : Frame} {Cs : Consts}.
Variable C : cfg.
Variable D : list (text * define).
Variable ops : list opcode.
Hypothesis normal : c_normal C = true.
Hypothesis no_counter : c_counter C = false.
Hypothesis D_names : forall w, ~ name_start (hd0 w) -> tfind (key C w) D = None.
Variable n2 : nat.
Hypothesis deep2 : (20 <= n2)%nat.
Notation taken := (taken C D).
Notation assoc := (assoc (key C)).
Notation lookup := (lookup (key C)).
Notation val := (val (c_wrap C) (key C)).
Notation core := (core C D ops).
Notation sound := (sound C).
Notation ext := (ext C).
Notation free := (free C D).
Notation enc := (enc C).
Notation fills := (fills C D ops n2).
Ltac core_tac := match goal with H : core _ _ _ |- core _ _ _ => destruct H; constructor; assumption end.
Ltac at_tac := match goal with H : at_ _ _ _ _ |- at_ _ _ _ _ => destruct H; constructor; assumption end.
(** ** Closing a session *)
Lemma close0 k t here out q f s : 1 <= k -> core (k + 1) t s -> at_ here out q s -> errs_ok k (s_errs s) ->
  exists s', (replay_session C (k + 1) f ;;; end_session (k + 1)) s = Ok tt s' /\ core k t s' /\ at_ here out q s' /\ s_errs s' = s_errs s.
Proof.
  intros K1 K A E. unfold replay_session. rewrite !bind_assoc, bind_get. replace (k + 1 =? 1) with false by lia. rewrite bind_upd.
  unfold end_session. rewrite !bind_get, !bind_upd. replace (k + 1 =? 1) with false by lia. cbn [andb ret].
  eexists. split; [reflexivity|]. cbn [s_errs set_errs set_sess]. rewrite (replay_le k) by now apply errs_all. rewrite (unlead_le k) by now apply errs_all.
  split; [|split; [at_tac|reflexivity]]. destruct K; constructor; try assumption. cbn. lia.
Qed.
Lemma close1 k t here out q s e l : 1 <= k -> core (k + 1) t s -> at_ here out q s -> s_errs s = e :: l -> e_sess e = k + 1 ->
  e_code e = 262 -> errs_ok k l ->
  exists s', (replay_session C (k + 1) true ;;; end_session (k + 1)) s = Ok tt s' /\ core k t s' /\ at_ here out q s'.
Proof.
  intros K1 K A Es S Cd E. unfold replay_session. rewrite !bind_assoc, bind_get. replace (k + 1 =? 1) with false by lia. rewrite bind_upd.
  unfold end_session. rewrite !bind_get, !bind_upd. replace (k + 1 =? 1) with false by lia. cbn [andb ret].
  eexists. split; [reflexivity|]. rewrite Es. cbn [replay_up]. rewrite S, Z.eqb_refl. rewrite (replay_le k) by now apply errs_all.
  split; [|at_tac]. destruct K; constructor; try assumption; cbn [s_errs set_errs set_sess s_sess].
  - lia.
  - unfold unlead. cbn [e_sess]. replace (k + 1 - 1 =? k + 1) with false by lia. cbn [errs_ok e_sess]. split; [split; [exact Cd|cbn; lia]|replace (k + 1 - 1) with k by lia; exact E].
Qed.
Lemma drop1 k t here out q s e : 1 <= k -> core (k + 1) t s -> at_ here out q s -> forall l, s_errs s = e :: l -> e_sess e = k + 1 ->
  errs_ok k l ->
  exists s', end_session (k + 1) s = Ok tt s' /\ core k t s' /\ at_ here out q s' /\ s_errs s' = l.
Proof.
  intros K1 K A l Es S E. unfold end_session. rewrite !bind_get, !bind_upd. replace (k + 1 =? 1) with false by lia. cbn [andb ret].
  eexists. split; [reflexivity|]. cbn [s_errs set_errs set_sess]. rewrite Es. cbn [unlead]. rewrite S, Z.eqb_refl. rewrite (unlead_le k) by now apply errs_all.
  split; [|split; [at_tac|reflexivity]]. destruct K; constructor; try assumption; cbn; lia.
Qed.

(** ** Expanding an expression that has to wait *)
Lemma free_subst t e : Forall (fun n => taken n = false) (names_of e) -> @AsmProofs.free no_params C D (subst (key C) t e).
Proof.
  unfold AsmProofs.free, usable. rewrite forallb_forall, Forall_forall. intros H.
  assert (G : (forall u n, In n (term_names (subst_term (key C) t u)) -> In n (term_names u)) /\
              (forall u n, In n (names_of (subst (key C) t u)) -> In n (names_of u))).
  { apply term_expr_ind.
    - intros g a n. destruct a; try easy. cbn. now destruct (assoc t _).
    - intros g u IH n. exact (IH n).
    - intros u IH n. exact (IH n).
    - intros u IH o u' IH' n. cbn. rewrite !in_app_iff. intros [I|I]; [left; now apply IH|right; now apply IH']. }
  intros n I. now rewrite (H n (proj2 G _ _ I)).
Qed.
(** Names that are not labels. *)
Definition shadow (w : text) : bool := taken w || isSome (assoc params w).
Lemma shadow_odd k t s : core k t s -> forall w, ~ name_start (hd0 w) -> shadow w = false.
Proof. intros K w H. unfold shadow. rewrite taken_find. now rewrite D_names, (k_pnames _ _ _ _ _ _ K). Qed.
Lemma wait_names t e : may_wait (key C) taken t e = true -> Forall (fun n => assoc params n = None) (names_of e).
Proof.
  unfold may_wait. intros H. apply Bool.andb_true_iff in H as (_ & H). rewrite forallb_forall in H. rewrite Forall_forall. intros n I. apply H in I. apply Bool.negb_true_iff in I.
  unfold isSome in I. now destruct (assoc params n).
Qed.
Lemma free_names t e : free e -> may_wait (key C) taken t e = true -> Forall (fun n => taken n = false) (names_of e).
Proof.
  intros H W. apply wait_names in W. unfold AsmProofs.free, usable in H. rewrite forallb_forall in H. rewrite Forall_forall in *. intros n I. specialize (H n I). rewrite (W n I) in H.
  cbn [isSome] in H. rewrite orb_false_r in H. now apply Bool.negb_true_iff in H.
Qed.
Lemma shadow_names t e : free e -> may_wait (key C) taken t e = true -> Forall (fun n => shadow n = false) (names_of e).
Proof.
  intros F W. apply (free_names t) in F; [|exact W]. apply wait_names in W. rewrite Forall_forall in *. intros n I. unfold shadow. now rewrite F, W.
Qed.
Lemma expand_waiting n k t s e te w1 w2 : (1 <= n)%nat -> core k t s -> sound t -> free e -> may_wait (key C) taken t e = true ->
  writes e te -> Forall blank w1 -> Forall blank w2 ->
  exists te', expand_expr (knot C n) (w1 ++ te ++ w2) true s = Ok (w1 ++ te' ++ w2) s /\ writes (subst (key C) t e) te'.
Proof.
  intros Hn K (S1 & S2) F MW W B1 B2. destruct n as [|n]; [lia|].
  pose proof (shadow_odd _ _ _ K) as OT.
  destruct (proj2 (expands (key C) shadow t OT S2 S1) e te W (may_wait_hidden (key C) shadow t taken e (fun w => eq_refl) MW) (shadow_names t e F MW)) as (te' & Fi & W' & _).
  exists te'. split; [|exact W'].
  assert (Fa : fine (key C) shadow t (w1 ++ te ++ w2) (w1 ++ te' ++ w2)).
  { apply fine_plain; [now apply blanks_plain|]. apply fine_left; [|exact Fi|apply fine_chars; now apply blanks_plain].
    destruct B2 as [|c ? B]; [reflexivity|]. cbn. unfold blank in B. destruct B as [->|[->|[->| ->]]]; reflexivity. }
  destruct Fa as (Fa & X & Q). unfold expand_expr. cbn [knot f_expand]. unfold expand_expr_full.
  change (RECURSION_LIMIT <? 0) with false. cbv iota. rewrite (expand_is C (knot C n) 0 s (rep_name (key C) t)).
  - now rewrite X.
  - intros w. unfold rep_name, by_label. rewrite <- (k_labels _ _ _ _ _ _ K w).
    pose proof (k_labels _ _ _ _ _ _ K w) as L.
    destruct (tfind (key C w) (s_labels s)) as [l|]; cbn [option_map] in *; [|reflexivity].
    symmetry in L. apply S1 in L. now destruct (dec_small _ L) as (_ & _ & _ & ->).
  - lia.
  - exact Q.
  - eapply Forall_impl; [|exact Fa]. intros w Cl R. rewrite (k_args _ _ _ _ _ _ K), (k_defines _ _ _ _ _ _ K).
    specialize (Cl R). unfold shadow in Cl. apply Bool.orb_false_iff in Cl as (Cl & Cp). rewrite taken_find in Cl. unfold isSome in Cl, Cp.
    pose proof (k_frame _ _ _ _ _ _ K w) as Fr. destruct (find_arg (key C w) frame); [destruct Fr as ((v & Ev & _) & _); rewrite Ev in Cp; discriminate|].
    split; [reflexivity|]. now destruct (tfind (key C w) D).
Qed.
(** Only the names in an expression matter to its value. *)
Lemma value_names wraps here (f g : text -> option Z) :
  (forall u, Forall (fun n => f n = g n) (term_names u) -> term_value wraps here f u = term_value wraps here g u) /\
  (forall e, Forall (fun n => f n = g n) (names_of e) -> value wraps here f e = value wraps here g e).
Proof.
  apply term_expr_ind.
  - intros sg a H. destruct a; try reflexivity. cbn in *. inversion H as [|? ? E _]; subst. now rewrite E.
  - intros sg e IH H. change (andthen (value wraps here f e) (apply_sign wraps sg) = andthen (value wraps here g e) (apply_sign wraps sg)). now rewrite IH.
  - intros u IH H. exact (IH H).
  - intros e IHe o u IHu H. cbn [names_of] in H. apply Forall_app in H as (H1 & H2).
    change (andthen (value wraps here f e) (fun a => andthen (term_value wraps here f u) (compute wraps o a)) =
      andthen (value wraps here g e) (fun a => andthen (term_value wraps here g u) (compute wraps o a))). now rewrite IHe, IHu.
Qed.
Lemma val_plain here T e : Forall (fun n => assoc params n = None) (names_of e) -> val here T e = @AsmSpec.val no_params (c_wrap C) (key C) here T e.
Proof.
  intros F. unfold AsmSpec.val. rewrite (proj2 (value_names (c_wrap C) here (lookup T) (@AsmSpec.lookup no_params (key C) T)) e); [reflexivity|].
  eapply Forall_impl; [|exact F]. intros n H. unfold AsmSpec.lookup. now rewrite H.
Qed.

(** ** An operand or number *)
Definition zero_type (ty : arg_type) : arg_type := match ty with ARG_ADDR_OFFSET => ARG_NUM_8 | _ => ty end.
Lemma enc_zero ty here size orv v b : ty <> ARG_RST -> enc ty here size orv v = Some b ->
  exists b0, enc (zero_type ty) here size 0 0 = Some b0 /\ length b0 = length b.
Proof.
  intros N E. apply enc_length in E. rewrite E.
  assert (Ex : exists b0, enc (zero_type ty) here size 0 0 = Some b0).
  { destruct ty; cbn; try (eexists; reflexivity); try congruence. destruct (c_ez80 C); cbn; eexists; reflexivity. }
  destruct Ex as (b0 & Eb). exists b0. split; [exact Eb|]. apply enc_length in Eb. rewrite Eb. now destruct ty.
Qed.
Lemma add_expr n k t T s here out q e te w1 w2 ty size orv v b :
  (20 <= n)%nat -> 1 <= k -> core k t s -> at_ here out q s -> sound t -> ext t T -> free e ->
  (isSome (val here t e) || may_wait (key C) taken t e) = true -> (ty = ARG_RST -> val here t e <> None) ->
  writes e te -> nest e <= nest_limit -> Forall blank w1 -> Forall blank w2 -> val here T e = Some v ->
  enc ty here size orv v = Some b -> 0 <= size <= 255 -> is_byte orv -> zlen out + zlen b <= 8000000 ->
  exists s' b0 q', add_pass_two_expr C (knot C n) (w1 ++ te ++ w2) ty size orv s = Ok tt s' /\
    core k t s' /\ at_ here (out ++ b0) (q ++ q') s' /\ fills T (zlen out) q' b0 b /\ s_errs s' = s_errs s.
Proof.
  intros Hn K1 K A Sd X F MW NR W N B1 B2 V E Sz O Rm.
  unfold add_pass_two_expr, start_session. rewrite !bind_assoc, bind_get, !bind_assoc, bind_upd, bind_ret.
  rewrite (k_sess _ _ _ _ _ _ K). set (s1 := set_sess (k + 1) s).
  assert (K' : core (k + 1) t s1).
  { destruct K; constructor; try assumption; [reflexivity|]. apply errs_up. assumption. }
  assert (A1 : at_ here out q s1) by at_tac.
  assert (Pc : s_pc s1 = here) by apply (a_pc _ _ _ _ A1).
  assert (Er : errs_ok k (s_errs s1)) by apply (k_errs _ _ _ _ _ _ K).
  pose proof (parse_known C D ops D_names n Hn _ _ s1 e te w1 w2 [] v K' F W N B1 B2 (or_introl eq_refl)) as Pk.
  pose proof (parse_unknown C D ops D_names n Hn _ _ s1 e te w1 w2 [] K' F W N B1 B2 (or_introl eq_refl)) as Pu.
  rewrite Pc, app_nil_r in Pk, Pu.
  destruct (val_cases C t T here e v X V) as [Vk|Vu].
  - rewrite (bind_ok _ _ _ _ _ (Pk Vk)). rewrite bind_get. cbv iota. rewrite bind_assoc.
    set (s2 := set_depth 0 (set_fwd false s1)) in *.
    rewrite (bind_ok _ _ s2 tt (emitted b s2)).
    2:{ apply write_enc; auto. - change (s_pc s2) with (s_pc s1). now rewrite Pc. - split; change (s_pos s2) with (s_pos s); rewrite (a_pos _ _ _ _ A); unfold zlen in *; lia. }
    destruct (close0 k t here (out ++ b) q false (emitted b s2)) as (s' & Ec & K3 & A3 & E3); auto.
    { apply emitted_core. subst s2. core_tac. } { apply emitted_at. subst s2. at_tac. }
    exists s', b, []. rewrite app_nil_r. split; [exact Ec|]. split; [exact K3|]. split; [exact A3|]. split; [apply fills_nil|]. exact E3.
  - assert (Vn : val here t e = None) by (unfold AsmSpec.val; now rewrite Vu).
    rewrite Vn in MW. cbn [isSome orb] in MW. assert (NRt : ty <> ARG_RST) by (intros H; now apply NR in H).
    destruct (Pu Vu) as (d & P). rewrite (bind_ok _ _ _ _ _ P). rewrite bind_get. cbv iota.
    set (s2 := set_depth d (set_fwd true s1)) in *.
    assert (Lf : sess_fatal (k + 1) (s_errs (noted false 262 s2)) = false).
    { unfold sess_fatal, noted. cbn [s_errs set_errs lead e_sess]. change (s_sess s2) with (k + 1). rewrite Z.eqb_refl.
      change (s_errs s2) with (s_errs s1). now rewrite (lead_le k) by now apply errs_all. }
    rewrite Lf. rewrite !bind_assoc, bind_get, !bind_assoc, bind_get, !bind_assoc.
    unfold get_curr_reusable. rewrite !bind_assoc, bind_get, bind_ret, !bind_assoc, bind_get, !bind_assoc, bind_get, !bind_assoc.
    set (s3 := noted false 262 s2) in *.
    assert (K3 : core (k + 1) t s3).
    { destruct K'; constructor; try assumption. cbn [s_errs s3 noted set_errs errs_ok]. split; [split; [reflexivity|cbn; lia]|]. change (e_sess _) with (s_sess s2). change (s_sess s2) with (k + 1). now apply errs_up. }
    destruct (expand_waiting n (k + 1) t s3 e te w1 w2) as (te' & Ex & W'); auto; [lia|].
    rewrite (bind_ok _ _ _ _ _ Ex). rewrite !bind_assoc, bind_get, !bind_assoc, bind_upd.
    set (pe := mkpexpr _ _ _ _ _ _ _ _ _). set (s4 := set_exprs _ s3).
    destruct (enc_zero ty here size orv v b NRt E) as (b0 & E0 & L0).
    assert (Wz : write_arg C 0 (zero_type ty) size 0 s4 = Ok tt (emitted b0 s4)).
    { apply write_enc; auto.
      - change (s_pc s4) with (s_pc s1). now rewrite Pc.
      - split; change (s_pos s4) with (s_pos s); rewrite (a_pos _ _ _ _ A); unfold zlen in *; lia.
      - split; lia. }
    unfold zero_type in Wz. rewrite (bind_ok _ _ _ _ _ Wz).
    assert (A4 : at_ here out (q ++ [pe]) s4).
    { destruct A1 as [P1 P2 P3 P4]. constructor; try assumption. cbn. f_equal. exact P4. }
    destruct (drop1 k t here (out ++ b0) (q ++ [pe]) (emitted b0 s4) (mkerr 262 (k + 1) false (s_line s2) (s_file s2)) K1) with (l := s_errs s)
      as (s' & Ed & K5 & A5 & E5); auto.
    { apply emitted_core. subst s4. core_tac. } { now apply emitted_at. }
    exists s', b0, [pe]. split; [exact Ed|]. split; [exact K5|]. split; [exact A5|]. split; [|exact E5].
    assert (Hpe : pe = mkpexpr here (s_line s) (s_curr_reus s - 1) (zlen out) (w1 ++ te' ++ w2) ty (s_file s) size orv).
    { subst pe. f_equal; [exact Pc|apply (a_pos _ _ _ _ A)]. }
    rewrite Hpe. apply fills_one with (e := subst (key C) t e) (v := v); auto.
    + rewrite (proj2 (nest_subst (key C) t)). unfold nest_limit in N. destruct params; lia.
    + apply free_subst. now apply (free_names t).
    + rewrite <- V. rewrite val_plain by (eapply wait_names; exact MW). unfold AsmSpec.val.
      now rewrite (proj2 (value_subst (key C) shadow t (shadow_odd _ _ _ K) (proj2 Sd) (proj1 Sd) (c_wrap C) here (@AsmSpec.lookup no_params (key C) T) X)).
    + unfold zlen; lia.
Qed.
End Waiting.
