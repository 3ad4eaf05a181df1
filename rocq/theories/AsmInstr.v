(** The assembler follows the reference assembler of AsmSpec: instructions. *)
From Verif Require Import Base BaseProofs State MonadProofs UtilsModel ErrorsModel StorageModel ParserModel PassTwoModel
  PreopModel PassOneModel DirectiveModel Knot OpcodeTables UtilsSpec UtilsProofs StorageProofs PassTwoSpec PassTwoProofs
  ParserSpec ParserProofs ParserProps StringProps InstrSpec InstrProps MatchSpec MatchProps AsmSpec AsmExpand AsmProofs AsmData.

(** ** The texts of the operands *)
Fixpoint texts_fine (pat : text) (ops : list text) : Prop :=
  match pat with
  | [] => True
  | c :: pat' =>
    if is_arg c then
      match ops with
      | u :: ops' => (if c =? 64 then u = [] \/ hd0 u = 43 \/ hd0 u = 45 else hd0 u <> 40) /\ texts_fine pat' ops'
      | [] => False
      end
    else texts_fine pat' ops
  end.
Lemma wild_arg c : wild c -> is_arg c = true /\ c <> 64.
Proof. intros H. vm_compute in H. intuition (subst; reflexivity || discriminate). Qed.
Lemma not_wild c : ~ wild c -> c <> ch "@" -> is_arg c = false.
Proof.
  intros H N. assert (K : ~ (c = 42 \/ c = 38 \/ c = 37 \/ c = 35 \/ c = 94)) by (intros K; apply H; vm_compute; intuition (subst; auto)).
  change (ch "@") with 64 in N. unfold is_arg. lia.
Qed.
Lemma plain_head o l b : plain_ok o l -> hd0 (pieces_text l ++ b) <> 40.
Proof.
  intros (_ & _ & w & x & r & E & Hw & Hb & _ & N & Wx & Hr). rewrite E. destruct w as [|c w].
  - rewrite (Wx eq_refl). cbn [app]. destruct Hr as [->|(c & t & -> & _ & _ & _ & H)]; [now cbn in N|]. cbn. now apply H.
  - inversion Hw as [|? ? H _]; subst. cbn. intros ->. revert H. unfold MatchSpec.name_char, MatchSpec.letter_or_digit. simpl. lia.
Qed.
Lemma spells_texts o pat ws ops : spells pat ws ops -> Forall (fun w => item_ok o (fst w)) ws -> texts_fine pat ops.
Proof.
  induction 1 as [|c c' b pat ws ops Hw Hc Hs Hb _ IH|c l b pat ws ops Hw Hb _ IH|l b pat ws ops Hb _ IH|pat ws ops _ IH]; intros F; cbn [texts_fine].
  - exact I.
  - rewrite not_wild by assumption. apply IH. now inversion F.
  - inversion F as [|? ? F1 F2]; subst. destruct (wild_arg c Hw) as (-> & N). replace (c =? 64) with false by lia. split; [|now apply IH]. now apply (plain_head o).
  - inversion F as [|? ? F1 F2]; subst. change (is_arg (ch "@")) with true. cbv iota. change (ch "@" =? 64) with true. split; [|now apply IH].
    right. destruct F1 as (_ & _ & c & t & E & H). cbn [fst] in E. rewrite E. exact H.
  - change (is_arg (ch "@")) with true. cbv iota. change (ch "@" =? 64) with true. split; [now left|now apply IH].
Qed.

(** ** Rows of the tables *)
Definition stars (long : bool) (pat : text) : Z := fold_right (fun c n => (if (c =? 42) && long then 1 else 0) + n) 0 pat.
Fixpoint jump_last (pat : text) : bool :=
  match pat with [] => true | c :: p => (negb (c =? 37) || negb (memb 42 p)) && jump_last p end.
Definition row_fine (i : instr) : bool :=
  forallb (fun b => (0 <=? b) && (b <? 256)) (opcode_bytes i) && (0 <=? i_end i) && (i_end i <? 256) &&
  jump_last (i_args i) && (i_size i <=? 20) && (zlen (i_args i) <=? 100).
Lemma rows_fine : forallb (fun o => forallb row_fine (op_instrs o)) (opcode_list ++ opcode_list_ez80) = true.
Proof. vm_compute. reflexivity. Qed.

Lemma row_of o i : In o (opcode_list ++ opcode_list_ez80) -> In i (op_instrs o) ->
  Forall is_byte (opcode_bytes i) /\ is_byte (i_end i) /\ jump_last (i_args i) = true /\ i_size i <= 20 /\ zlen (i_args i) <= 100 /\
  i_size i = zlen (opcode_bytes i) + operands_width false (i_args i) + (if i_has_end i then 1 else 0).
Proof.
  intros Ho Hi. pose proof rows_fine as R. rewrite forallb_forall in R. specialize (R o Ho). rewrite forallb_forall in R. specialize (R i Hi).
  unfold row_fine in R. repeat (apply Bool.andb_true_iff in R as (R & ?)). split.
  { rewrite forallb_forall in R. apply Forall_forall. intros b I. apply R in I. unfold is_byte. lia. }
  split; [unfold is_byte; lia|]. split; [assumption|]. split; [lia|]. split; [lia|].
  rewrite (c10_tables o i Ho Hi). unfold opcode_bytes. unfold zlen. now rewrite rev_length.
Qed.
Lemma width_stars long pat : operands_width long pat = operands_width false pat + stars long pat.
Proof.
  unfold operands_width, stars. induction pat as [|c pat IH]; [reflexivity|]. cbn [fold_right]. rewrite IH. unfold operand_width. change (ch "*") with 42.
  destruct (c =? 42); cbn [andb]; [|lia]. destruct long; lia.
Qed.
Lemma stars_nonneg long pat : 0 <= stars long pat <= zlen pat.
Proof. unfold stars. induction pat as [|c pat IH]; [cbn; lia|]. cbn [fold_right]. rewrite zlen_cons. destruct (_ && _); lia. Qed.
Lemma stars_none long pat : memb 42 pat = false -> stars long pat = 0.
Proof. unfold stars. induction pat as [|c pat IH]; [reflexivity|]. cbn [fold_right memb existsb]. intros H. apply Bool.orb_false_iff in H as (H & H'). rewrite (IH H'). rewrite Z.eqb_sym in H. now rewrite H. Qed.
Lemma width_nonneg long pat : 0 <= operands_width long pat.
Proof. unfold operands_width. induction pat as [|c pat IH]; [cbn; lia|]. cbn [fold_right]. unfold operand_width at 1. destruct (_ =? _); [destruct long|destruct (_ || _)]; lia. Qed.

Lemma wild_is c : is_wild c = is_arg c.
Proof. unfold is_wild, is_arg. change (zs "*&%@#^") with [42; 38; 37; 64; 35; 94]. cbn [memb existsb]. lia. Qed.
Lemma no_extra u : hd0 u <> 40 -> extra_parens u = false.
Proof. intros H. unfold extra_parens. replace (hd0 u =? 40) with false by lia. reflexivity. Qed.

Lemma name_lower c : MatchSpec.name_char (tolower c) -> MatchSpec.name_char c.
Proof.
  unfold tolower, isupper. destruct (_ && _) eqn:E; [|auto]. intros _. left. unfold MatchSpec.letter_or_digit. lia.
Qed.
Lemma suffix_chars ez80 t x : suffix_meaning ez80 (lower t) = Some x -> Forall MatchSpec.name_char t.
Proof.
  intros H. assert (G : Forall MatchSpec.name_char (lower t)).
  { unfold suffix_meaning in H. repeat match type of H with (if ?b then _ else _) = _ => destruct b eqn:? end; try discriminate;
      match goal with K : eqbl _ _ = true |- _ => apply eqbl_eq in K; rewrite K end;
      match goal with |- Forall _ (zs ?x) => let y := eval vm_compute in (zs x) in change (zs x) with y end;
      repeat (apply Forall_cons; [unfold MatchSpec.name_char, MatchSpec.letter_or_digit; (left; lia) || (right; vm_compute; tauto)|]); constructor. }
  unfold lower in G. rewrite Forall_map in G. eapply Forall_impl; [|exact G]. intros c. apply name_lower.
Qed.
Lemma ci_alnum : forall a b, eqbl_ci a b = true -> forallb isalnum b = true -> Forall MatchSpec.name_char a /\ ~ In 46 a.
Proof.
  induction a as [|x a IH]; intros [|y b] E F; try discriminate; [split; [constructor|intros []]|].
  cbn in E, F. apply Bool.andb_true_iff in E as (E & E'). apply Bool.andb_true_iff in F as (F & F'). destruct (IH b E' F') as (G1 & G2).
  assert (G : MatchSpec.letter_or_digit x). { unfold MatchSpec.letter_or_digit. unfold tolower, isupper in E. unfold isalnum, isalpha, isupper, islower, isdigit in F. destruct (_ && _) eqn:U in E; destruct ((65 <=? y) && (y <=? 90)) eqn:U2 in E; lia. }
  split; [constructor; [now left|exact G1]|]. intros [->|I]; [|now apply G2]. unfold MatchSpec.letter_or_digit in G. lia.
Qed.

Section Instr.
Context {lv : Level} {dr : Dirs} {Pm : Params} {fr : Frame} {Cs : Consts} {Ca : Calls}.
Variable C : cfg.
Variable D : list (text * define).
Variable ops : list opcode.
Hypothesis normal : c_normal C = true.
Hypothesis D_names : forall w, ~ name_start (hd0 w) -> tfind (key C w) D = None.
Variable n2 : nat.
Hypothesis deep2 : (20 <= n2)%nat.
Notation core := (core C D ops).
Notation fills := (fills C D ops n2).
Notation taken := (taken C D).
Notation lookup := (lookup (key C)).
Notation val := (val (c_wrap C) (key C)).
Notation emitted_core := (emitted_core C D ops).
Notation fills_nil := (fills_nil C D ops n2).
Notation fills_app := (fills_app C D ops D_names n2 deep2).
Notation add_expr := (add_expr C D ops D_names n2 deep2).
Notation expr_ok := (expr_ok (c_wrap C) (key C) taken).
Ltac core_tac := match goal with H : core _ _ _ |- core _ _ _ => destruct H; constructor; assumption end.
Ltac at_tac := match goal with H : at_ _ _ _ _ |- at_ _ _ _ _ => destruct H; constructor; assumption end.

Lemma write_all_ok k t here q : forall l s out, Forall is_byte l -> core k t s -> at_ here out q s -> zlen out + zlen l <= 8000000 ->
  exists s', write_all l s = Ok tt s' /\ core k t s' /\ at_ here (out ++ l) q s'.
Proof.
  induction l as [|v l IH]; intros s out F K A R.
  - exists s. rewrite app_nil_r. auto.
  - inversion F as [|? ? Hv F']; subst. rewrite zlen_cons in R. pose proof (zlen_nonneg l). cbn [write_all]. rewrite (bind_ok _ _ s tt (emitted [v] s)).
    2:{ rewrite write_out_emitted; [now rewrite u8_id|]. split; rewrite (a_pos _ _ _ _ A); unfold zlen in *; lia. }
    destruct (IH (emitted [v] s) (out ++ [v])) as (s' & E & K' & A'); auto.
    + now apply emitted_core.
    + now apply emitted_at.
    + rewrite zlen_app. change (zlen [v]) with 1. lia.
    + exists s'. rewrite <- app_assoc in A'. auto.
Qed.

Definition shown (here : Z) (t T : table) (u : text) (v : Z) : Prop :=
  exists e te w, nest e <= nest_limit /\ writes e te /\ Forall blank w /\ u = te ++ w /\ expr_ok here t e /\ val here T e = Some v.
Definition bit_rel (here : Z) (t T : table) (bt : option text) (bv : option Z) : Prop :=
  match bt, bv with
  | None, None => True
  | Some u, Some v => shown here t T u v /\ within 0 v 7 = true
  | _, _ => False
  end.
Lemma add_shown n k t T s here out q u ty size orv v b :
  (20 <= n)%nat -> 1 <= k -> core k t s -> at_ here out q s -> sound C t -> ext C t T -> shown here t T u v ->
  (ty = ARG_RST -> exists e te w, writes e te /\ Forall blank w /\ u = te ++ w /\ nest e <= nest_limit /\ expr_ok here t e /\ val here T e = Some v /\ val here t e <> None) ->
  enc C ty here size orv v = Some b -> 0 <= size <= 255 -> is_byte orv -> zlen out + zlen b <= 8000000 ->
  exists s' b0 q', add_pass_two_expr C (knot C n) u ty size orv s = Ok tt s' /\
    core k t s' /\ at_ here (out ++ b0) (q ++ q') s' /\ fills T (zlen out) q' b0 b.
Proof.
  intros Hn K1 K A Sd X Sh Kn E Sz O Rm.
  assert (G : exists e te w, nest e <= nest_limit /\ writes e te /\ Forall blank w /\ u = te ++ w /\ expr_ok here t e /\ val here T e = Some v /\ (ty = ARG_RST -> val here t e <> None)).
  { assert (Dec : ty = ARG_RST \/ ty <> ARG_RST) by (destruct ty; auto; right; discriminate). destruct Dec as [R|R].
    - destruct (Kn R) as (e & te & w & G1 & G2 & G3 & G4 & G5 & G6 & G7). exists e, te, w. auto 10.
    - destruct Sh as (e & te & w & G1 & G2 & G3 & G4 & G5 & G6). exists e, te, w. do 6 (split; [assumption|]). intros; contradiction. }
  destruct G as (e & te & w & G1 & G2 & G3 & -> & (G5 & G6) & G7 & G8).
  destruct (add_expr n k t T s here out q e te [] w ty size orv v b) as (s' & b0 & q' & P1 & P2 & P3 & P4 & _); auto.
  exists s', b0, q'. auto.
Qed.

Lemma operands_ok n k t T here tot sfx long : (20 <= n)%nat -> 1 <= k -> sound C t -> ext C t T -> 0 <= tot <= 255 ->
  long = ((0 <=? sfx) && truth (Z.land sfx SUFFIX_IL)) ->
  forall pat args es bt bv cur b bv' s out q, core k t s -> at_ here out q s -> jump_last pat = true -> cur + stars long pat = tot -> 0 <= cur ->
  operands_written pat (map (fun a => seg (fst a) (snd a)) args) es -> texts_fine pat (map (fun a => seg (fst a) (snd a)) args) ->
  Forall (expr_ok here t) es -> (In (ch "#") pat -> Forall (fun e => val here t e <> None) es) ->
  operands_bytes (c_wrap C) (c_ez80 C) (key C) T long here tot pat es bv = Some (b, bv') -> bit_rel here t T bt bv -> zlen out + zlen b <= 8000000 ->
  exists s' b0 q' bt', write_operands C (knot C n) pat args sfx cur bt s = Ok (tot, bt') s' /\ core k t s' /\
    at_ here (out ++ b0) (q ++ q') s' /\ fills T (zlen out) q' b0 b /\ bit_rel here t T bt' bv'.
Proof.
  intros Hn K1 Sd X Ht Hl. induction pat as [|c pat IH]; intros args es bt bv cur b bv' s out q K A J Cu C0 Ow Tf Oes Kn Ob Br Rm.
  - destruct Ow as (_ & ->). cbn in Ob. injection Ob as <- <-. cbn in Cu. exists s, [], [], bt. rewrite !app_nil_r. cbn [write_operands].
    split; [now replace cur with tot by lia|]. split; [exact K|]. split; [exact A|]. split; [apply fills_nil|exact Br].
  - cbn [operands_bytes operands_written texts_fine write_operands jump_last] in *. rewrite wild_is in Ow, Ob.
    apply Bool.andb_true_iff in J as (J1 & J2). change (stars long (c :: pat)) with ((if (c =? 42) && long then 1 else 0) + stars long pat) in Cu.
    pose proof (stars_nonneg long pat) as Sn.
    destruct (is_arg c) eqn:Ia.
    2:{ assert (c <> 42) by (unfold is_arg in Ia; lia). replace ((c =? 42) && long) with false in Cu by (destruct long; lia).
        eapply IH; eauto; try lia. intros I; apply Kn; now right. }
    destruct args as [|(a, e0) args]; cbn [map] in Ow, Tf; [destruct es; contradiction|]. cbn [fst snd] in Ow, Tf. set (u := seg a e0) in *.
    destruct es as [|e es]; [contradiction|]. destruct Ow as (N & (te & w & W & Bl & U) & Ow). destruct Tf as (Tu & Tf).
    pose proof (Forall_inv Oes) as Oe. pose proof (Forall_inv_tail Oes) as Ok'. subst long.
    assert (Kn' : In (ch "#") pat -> Forall (fun e => val here t e <> None) es).
    { intros I. specialize (Kn (or_intror I)). now inversion Kn. }
    destruct (val here T e) as [v|] eqn:V; [|discriminate].
    assert (Ex : extra_parens u = false).
    { apply no_extra. destruct (c =? 64); [|exact Tu]. destruct Tu as [->|[H|H]]; cbn; lia. }
    rewrite Ex. cbn [whenM]. rewrite bind_ret.
    change (ch "^") with 94 in Ob. change (ch "@") with 64 in U.
    destruct (c =? 94) eqn:E94.
    { apply Z.eqb_eq in E94 as ->. cbn [Z.eqb Pos.eqb andb] in *. destruct (within 0 v 7) eqn:Wi; [|discriminate].
      eapply IH; eauto; try lia. split; [|exact Wi]. exists e, te, w. auto 10. }
    destruct (operand_bytes (c_ez80 C) _ here tot c v) as [b1|] eqn:B1 in Ob; [|discriminate].
    destruct (operands_bytes _ _ _ T _ here tot pat es bv) as [(b2, x)|] eqn:B2 in Ob; [|discriminate]. injection Ob as <- <-.
    rewrite zlen_app in Rm. pose proof (zlen_nonneg b1). pose proof (zlen_nonneg b2).
    unfold operand_bytes in B1. change (ch "*") with 42 in B1. change (ch "&") with 38 in B1. change (ch "%") with 37 in B1. change (ch "@") with 64 in B1.
    set (long := (0 <=? sfx) && truth (Z.land sfx SUFFIX_IL)) in *.
    (* one operand, then the others *)
    assert (Step : forall u' ty size cur', shown here t T u' v -> (ty = ARG_RST -> c = 35 /\ u' = u) -> enc C ty here size 0 v = Some b1 -> 0 <= size <= 255 ->
      cur' + stars long pat = tot -> 0 <= cur' ->
      exists s' b0 q' bt', (add_pass_two_expr C (knot C n) u' ty size 0 ;;; write_operands C (knot C n) pat args sfx cur' bt) s = Ok (tot, bt') s' /\ core k t s' /\
        at_ here (out ++ b0) (q ++ q') s' /\ fills T (zlen out) q' b0 (b1 ++ b2) /\ bit_rel here t T bt' x).
    { intros u' ty size cur' Sh Rs En Sz Cu' C0'.
      destruct (add_shown n k t T s here out q u' ty size 0 v b1) as (s1 & c1 & q1 & P1 & P2 & P3 & P4); auto; try (split; lia); try lia.
      { intros R. destruct (Rs R) as (-> & ->). cbn in U. exists e, te, w. repeat split; auto; try apply Oe. specialize (Kn (or_introl eq_refl)). now inversion Kn. }
      rewrite (bind_ok _ _ _ _ _ P1). assert (L1 : zlen c1 = zlen b1) by (destruct P4 as (L & _); unfold zlen; now rewrite L).
      destruct (IH args es bt bv cur' b2 x s1 (out ++ c1) (q ++ q1)) as (s2 & c2 & q2 & bt' & R1 & R2 & R3 & R4 & R5); auto.
      { rewrite zlen_app. lia. }
      exists s2, (c1 ++ c2), (q1 ++ q2), bt'. rewrite <- !app_assoc in R3. split; [exact R1|]. split; [exact R2|]. split; [exact R3|]. split; [|exact R5].
      apply fills_app; [exact P4|]. now rewrite zlen_app in R4. }
    assert (Sh : c =? 64 = false -> shown here t T u v). { intros H1. rewrite H1 in U. exists e, te, w. auto 10. }
    destruct (c =? 42) eqn:E42.
    { apply Z.eqb_eq in E42 as ->. cbn [andb] in Cu. destruct long.
      - apply Step; auto; try lia. discriminate.
      - apply Step; auto; try lia. discriminate. }
    cbn [andb] in Cu.
    destruct (c =? 38) eqn:E38. { apply Z.eqb_eq in E38 as ->. apply Step; auto; try lia; discriminate. }
    destruct (c =? 37) eqn:E37.
    { apply Z.eqb_eq in E37 as ->. cbn [negb orb] in J1. apply Bool.negb_true_iff in J1. pose proof (stars_none long pat J1). apply Step; auto; try lia; [discriminate|].
      replace cur with tot by lia. exact B1. }
    destruct (c =? 64) eqn:E64.
    { apply Z.eqb_eq in E64 as ->. cbn in U. assert (Sh2 : shown here t T (48 :: u) v) by (exists e, te, w; auto 10).
      assert (G : match u with [] => add_pass_two_expr C (knot C n) (zs "0") ARG_IX_IY_OFFSET cur 0 | x :: _ => if (x =? 43) || (x =? 45) then add_pass_two_expr C (knot C n) (48 :: u) ARG_IX_IY_OFFSET cur 0
                 else set_error SPASM_ERR_INVALID_INDEX_OFFSET end = add_pass_two_expr C (knot C n) (48 :: u) ARG_IX_IY_OFFSET cur 0).
      { destruct u as [|y u']; [reflexivity|]. destruct Tu as [H1|H1]; [discriminate|]. cbn in H1. replace ((y =? 43) || (y =? 45)) with true by lia. reflexivity. }
      rewrite G. apply Step; auto; try lia; discriminate. }
    assert (c = 35) as -> by (unfold is_arg in Ia; lia). apply Step; auto; try lia.
Qed.

Lemma instr_data i args es n k t T here sfx s out q b : (20 <= n)%nat -> 1 <= k -> sound C t -> ext C t T ->
  core k t s -> at_ here out q s ->
  (exists o, In o (opcode_list ++ opcode_list_ez80) /\ In i (op_instrs o)) -> (sfx = [] \/ suffix_of (c_ez80 C) sfx <> None) -> 
  operands_written (i_args i) (map (fun a => seg (fst a) (snd a)) args) es -> texts_fine (i_args i) (map (fun a => seg (fst a) (snd a)) args) ->
  Forall (expr_ok here t) es -> (In (ch "#") (i_args i) -> Forall (fun e => val here t e <> None) es) ->
  instr_bytes (c_wrap C) (c_ez80 C) (key C) T here sfx i es = Some b -> zlen out + zlen b <= 8000000 ->
  exists s' b0 q', write_instruction_data C (knot C n) i args (match suffix_of (c_ez80 C) sfx with Some x => bits x | None => -1 end) s = Ok (instr_size (c_ez80 C) sfx i) s' /\
    core k t s' /\ at_ here (out ++ b0) (q ++ q') s' /\ fills T (zlen out) q' b0 b.
Proof.
  intros Hn K1 Sd X K A (o & Ho & Hi) Hs Ow Tf Oes Kn Ib Rm.
  destruct (row_of o i Ho Hi) as (Fb & Fe & Jl & Sz & Al & Is).
  unfold instr_bytes in Ib. set (tot := instr_size (c_ez80 C) sfx i) in *. set (long := long_mode (c_ez80 C) sfx) in *.
  destruct (operands_bytes _ _ _ T long here tot (i_args i) es None) as [(b1, bit)|] eqn:Ob; [|discriminate]. injection Ib as <-.
  set (pre := prefix_bytes (c_ez80 C) sfx) in *. set (code := match suffix_of (c_ez80 C) sfx with Some x => bits x | None => -1 end).
  set (cur := if 0 <=? code then i_size i + 1 else i_size i).
  set (sx := if 0 <=? code then code else if c_ez80 C then (if c_ez80 C then Z.lor SUFFIX_L SUFFIX_IL else 0) else code).
  pose proof (stars_nonneg long (i_args i)) as Sn. pose proof (width_nonneg false (i_args i)) as Wn. pose proof (zlen_nonneg (opcode_bytes i)) as On.
  assert (Cu : cur + stars long (i_args i) = tot).
  { unfold tot, instr_size. fold long. rewrite (width_stars long). unfold cur, code, prefix_bytes. rewrite Is.
    destruct (suffix_of _ _) as [x|]; [|change (zlen (@nil Z)) with 0; cbn [Z.leb Z.compare]; lia]. change (zlen [prefix_byte x]) with 1. replace (0 <=? bits x) with true by now destruct x. lia. }
  assert (C0 : 0 <= cur) by (unfold cur; rewrite Is; destruct (0 <=? code), (i_has_end i); lia).
  assert (Ct : 0 <= tot <= 255) by (unfold cur in *; destruct (0 <=? code); lia).
  assert (Lg : long = ((0 <=? sx) && truth (Z.land sx SUFFIX_IL))).
  { unfold long, long_mode, sx, code. destruct (suffix_of _ _) as [x|]; [|destruct (c_ez80 C); reflexivity]. replace (0 <=? bits x) with true by now destruct x. symmetry. apply il_bits. }
  rewrite !zlen_app in Rm. pose proof (zlen_nonneg pre) as Pn. pose proof (zlen_nonneg b1) as Bn.
  match type of Rm with context [zlen (if i_has_end i then ?l else [])] => pose proof (zlen_nonneg (if i_has_end i then l else [])) as En end.
  unfold write_instruction_data. rewrite bind_get. cbv zeta. rewrite (k_adl _ _ _ _ _ _ K). fold cur. fold sx. rewrite normal. change (true || c_list C) with true. cbn [whenM].
  assert (P1 : exists s1, whenM (0 <=? code) (write_out (64 + code * 9)) s = Ok tt s1 /\ core k t s1 /\ at_ here (out ++ pre) q s1).
  { unfold code, pre, prefix_bytes in *. destruct (suffix_of _ _) as [x|].
    - replace (0 <=? bits x) with true by now destruct x. cbn [whenM]. rewrite prefix_bits. exists (emitted [prefix_byte x] s). split; [|split; [now apply emitted_core|now apply emitted_at]].
      rewrite write_out_emitted; [rewrite u8_id; [reflexivity|destruct x; unfold is_byte; cbn; lia]|]. change (zlen [prefix_byte x]) with 1 in *. pose proof (zlen_nonneg out). split; rewrite (a_pos _ _ _ _ A); lia.
    - exists s. rewrite app_nil_r. auto. }
  destruct P1 as (s1 & P1 & K2 & A2). rewrite (bind_ok _ _ _ _ _ P1).
  destruct (write_all_ok k t here q (opcode_bytes i) s1 (out ++ pre) Fb K2 A2) as (s2 & P2 & K3 & A3). { rewrite zlen_app. lia. }
  unfold opcode_bytes at 1 in P2. rewrite (bind_ok _ _ _ _ _ P2).
  destruct (operands_ok n k t T here tot sx long Hn K1 Sd X Ct Lg (i_args i) args es None None cur b1 bit s2 ((out ++ pre) ++ opcode_bytes i) q)
    as (s3 & c3 & q3 & bt & P3 & K4 & A4 & F4 & Br); auto. { exact I. } { rewrite !zlen_app. lia. }
  rewrite (bind_ok _ _ _ _ _ P3). cbv beta iota. assert (L3 : zlen c3 = zlen b1) by (destruct F4 as (L & _); unfold zlen; now rewrite L).
  assert (F3 : fills T (zlen out) q3 (pre ++ opcode_bytes i ++ c3) (pre ++ opcode_bytes i ++ b1)).
  { rewrite !app_assoc. change q3 with ([] ++ q3). apply fills_app; [apply fills_nil|]. rewrite !zlen_app in F4. rewrite zlen_app. now rewrite Z.add_assoc. }
  destruct (i_has_end i) eqn:He; cbn [andb whenM].
  - destruct bt as [u|], bit as [x|]; try contradiction.
    + destruct Br as (Sh & Wi). destruct (add_shown n k t T s3 here _ _ u ARG_BIT_NUM tot (i_end i) x [Z.lor (8 * x) (i_end i)] Hn K1 K4 A4 Sd X Sh) as (s4 & c4 & q4 & P4 & K5 & A5 & F5); auto.
      { discriminate. } { cbn [enc]. now rewrite Wi. } { rewrite !zlen_app. lia. }
      rewrite (bind_ok _ _ _ _ _ P4). exists s4, ((pre ++ opcode_bytes i ++ c3) ++ c4), (q3 ++ q4). split; [reflexivity|]. split; [exact K5|]. split; [rewrite <- !app_assoc in *; exact A5|].
      replace (pre ++ opcode_bytes i ++ b1 ++ [Z.lor (8 * x) (i_end i)]) with ((pre ++ opcode_bytes i ++ b1) ++ [Z.lor (8 * x) (i_end i)]) by now rewrite <- !app_assoc.
      apply fills_app; [exact F3|]. rewrite !zlen_app in F5. rewrite !zlen_app. replace (zlen out + (zlen pre + (zlen (opcode_bytes i) + zlen c3))) with (zlen out + zlen pre + zlen (opcode_bytes i) + zlen c3) by lia. exact F5.
    + rewrite (bind_ok _ _ s3 tt (emitted [i_end i] s3)).
      2:{ rewrite write_out_emitted; [now rewrite u8_id|]. change (zlen [i_end i]) with 1 in *. pose proof (zlen_nonneg out). split; rewrite (a_pos _ _ _ _ A4); rewrite !zlen_app; lia. }
      exists (emitted [i_end i] s3), ((pre ++ opcode_bytes i ++ c3) ++ [i_end i]), (q3 ++ []). split; [reflexivity|]. split; [now apply emitted_core|]. split.
      { rewrite app_nil_r. assert (H := emitted_at _ _ _ [i_end i] _ A4). rewrite <- !app_assoc in *. exact H. }
      replace (pre ++ opcode_bytes i ++ b1 ++ [i_end i]) with ((pre ++ opcode_bytes i ++ b1) ++ [i_end i]) by now rewrite <- !app_assoc.
      apply fills_app; [exact F3|apply fills_nil].
  - exists s3, (pre ++ opcode_bytes i ++ c3), q3. rewrite app_nil_r. split; [reflexivity|]. split; [exact K4|]. split; [rewrite <- !app_assoc in *; exact A4|exact F3].
Qed.

Hypothesis known_table : ops = opcode_list \/ ops = opcode_list_ez80.
Lemma instr_ok n k t T name sfx o i gap ws texts es s here out q b rest : (20 <= n)%nat -> 1 <= k -> sound C t -> ext C t T ->
  core k t s -> at_ here out q s -> stmt_ok (c_wrap C) (c_ez80 C) (key C) taken ops here t (SInstr name sfx o i gap ws texts es) ->
  instr_bytes (c_wrap C) (c_ez80 C) (key C) T here sfx i es = Some b -> zlen out + zlen b <= 8000000 -> 0 <= here ->
  here + instr_size (c_ez80 C) sfx i <= 999999999 -> line_over rest ->
  exists s' b0 q', handle_opcode_or_macro C (knot C n) (name ++ sfx ++ gap ++ wtext ws ++ rest) s = Ok rest s' /\
    core k t s' /\ at_ (here + instr_size (c_ez80 C) sfx i) (out ++ b0) (q ++ q') s' /\ fills T (zlen out) q' b0 b.
Proof.
  intros Hn K1 Sd X K A (Io & Fi & Nm & Sf & Gp & Gw & Sp & It & Lw & Ow & Oes & Kn) Ib Rm H0 H1 Ov.
  assert (Ho2 : In o (opcode_list ++ opcode_list_ez80)) by (apply in_or_app; destruct known_table as [<-|<-]; auto).
  pose proof tables_names as Tn. rewrite forallb_forall in Tn. specialize (Tn o Ho2). destruct (ci_alnum name (op_name o) Nm Tn) as (Nc & Nd).
  assert (Ii : In i (op_instrs o)) by now apply find_some in Fi.
  set (code := match suffix_of (c_ez80 C) sfx with Some x => bits x | None => -1 end).
  assert (Sc : suffix_code C s name sfx code).
  { unfold code, suffix_of. destruct Sf as [->|(Ez & Sx)].
    - left. split; [reflexivity|]. split; [now destruct (c_ez80 C)|]. intros _. exact Nd.
    - right. split; [exact Ez|]. unfold suffix_of in Sx. rewrite (k_adl _ _ _ _ _ _ K). unfold lower. destruct (suffix_meaning _ _) as [x|]; [|congruence]. now exists x. }
  assert (Hd : is_name_char (hd0 (gap ++ wtext ws ++ rest)) = false).
  { destruct gap as [|c gap].
    - rewrite (Gw eq_refl). cbn [wtext flat_map app]. destruct (over_head rest Ov) as [E|E].
      + change (is_name_char (hd0 rest) = false). rewrite E. reflexivity.
      + change (is_name_char (hd0 rest) = false). unfold line_ender in E. revert E. generalize (hd0 rest). intros c E. unfold is_name_char, isalnum, isalpha, isupper, islower, isdigit. change (zs "_[]!?.") with [95; 91; 93; 33; 63; 46]. cbn [memb existsb]. lia.
    - inversion Gp as [|? ? G _]; subst. cbn [app hd0]. revert G. unfold blank, is_name_char, isalnum, isalpha, isupper, islower, isdigit. cbn [memb existsb]. lia. }
  destruct (c12_statement C (knot C n) name sfx gap o i ws texts rest code s) as (j & args & A1 & A2 & A3 & A4); auto.
  { rewrite (k_ops _ _ _ _ _ _ K). exact known_table. }
  { rewrite (k_ops _ _ _ _ _ _ K). exact Io. }
  { apply Forall_app. split; [exact Nc|]. destruct Sf as [->|(_ & Sx)]; [constructor|]. unfold suffix_of in Sx. destruct (suffix_meaning _ _) as [x|] eqn:E; [|congruence]. eapply suffix_chars. exact E. }
  unfold first_like in A1. rewrite Fi in A1. injection A1 as <-. rewrite A4.
  assert (So : sfx = [] \/ suffix_of (c_ez80 C) sfx <> None) by (destruct Sf as [->|(_ & Sx)]; auto).
  destruct (instr_data i args es n k t T here sfx s out q b) as (s1 & b0 & q' & P1 & K2 & A5 & F1); auto.
  { now exists o. } { now rewrite A3. } { rewrite A3. eapply spells_texts; eauto. }
  fold code in P1. rewrite (bind_ok _ _ _ _ _ P1).
  assert (Tn0 : 0 <= instr_size (c_ez80 C) sfx i).
  { unfold instr_size. pose proof (zlen_nonneg (prefix_bytes (c_ez80 C) sfx)). pose proof (zlen_nonneg (opcode_bytes i)). pose proof (width_nonneg (long_mode (c_ez80 C) sfx) (i_args i)). destruct (i_has_end i); lia. }
  assert (Mv : exists s2, add_pc (instr_size (c_ez80 C) sfx i) s1 = Ok tt s2 /\ core k t s2 /\ at_ (here + instr_size (c_ez80 C) sfx i) (out ++ b0) (q ++ q') s2).
  { eexists. split; [reflexivity|]. split; [core_tac|]. destruct A5 as [Q1 Q2 Q3 Q4]; constructor; try assumption. cbn. rewrite Q1. unfold u32. lia. }
  destruct Mv as (s2 & E2 & K3 & A6). rewrite (bind_ok _ _ _ _ _ E2). rewrite bind_get. cbv zeta. unfold add_stats.
  rewrite !bind_assoc, bind_get, !bind_assoc, bind_get, !bind_assoc, bind_get, !bind_assoc, bind_upd, !bind_assoc, bind_upd, bind_upd.
  eexists. exists b0, q'. split; [reflexivity|]. split; [core_tac|]. split; [at_tac|exact F1].
Qed.
End Instr.
