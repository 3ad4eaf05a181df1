(** Properties of the reference assembler itself. *)
From Verif Require Import Base BaseProofs State UtilsSpec UtilsProofs StorageSpec ParserSpec InstrSpec MatchSpec AsmSpec AsmExpand.
#[local] Existing Instance no_params.
#[local] Existing Instance no_calls.

Section Ref.
Variable wraps ez80 : bool.
Variable fold : text -> text.
Variable taken : text -> bool.
Notation lookup := (lookup fold).
Notation val := (val wraps fold).
Notation fill_args := (fill_args wraps fold).
Notation data_bytes := (data_bytes wraps ez80 fold).
Notation operands_bytes := (operands_bytes wraps ez80 fold).
Notation instr_bytes := (instr_bytes wraps ez80 fold).
Notation with_label := (with_label fold taken).
Notation after := (after wraps ez80 fold taken).
Notation emits := (emits wraps ez80 fold taken).
Notation symbols := (symbols wraps ez80 fold taken).
Notation output := (output wraps ez80 fold taken).

(** ** More symbols, same results *)
Definition more (t T : table) : Prop := forall n v, lookup t n = Some v -> lookup T n = Some v.
Lemma val_more t T here e v : more t T -> val here t e = Some v -> val here T e = Some v.
Proof.
  intros H E. unfold AsmSpec.val in *. destruct (proj2 (value_fewer wraps here (lookup t) (lookup T) H) e) as [Q|Q]; rewrite Q in E; [exact E|discriminate].
Qed.
Lemma operands_more t T long here size : more t T -> forall pat es bit r, operands_bytes t long here size pat es bit = Some r -> operands_bytes T long here size pat es bit = Some r.
Proof.
  intros H. induction pat as [|c pat IH]; intros es bit r E; [exact E|]. cbn [AsmSpec.operands_bytes] in *. destruct (is_wild c); [|now apply IH].
  destruct es as [|e es]; [discriminate|]. destruct (val here t e) as [v|] eqn:V; [|discriminate]. rewrite (val_more _ _ _ _ _ H V).
  destruct (c =? ch "^"); [destruct (within 0 v 7); [now apply IH|discriminate]|]. destruct (operand_bytes ez80 long here size c v) as [b|]; [|discriminate].
  destruct (operands_bytes t long here size pat es bit) as [(b', x)|] eqn:Q; [|discriminate]. now rewrite (IH _ _ _ Q).
Qed.
Lemma instr_more t T here sfx i es b : more t T -> instr_bytes t here sfx i es = Some b -> instr_bytes T here sfx i es = Some b.
Proof.
  intros H E. unfold AsmSpec.instr_bytes in *. destruct (operands_bytes t _ _ _ _ _ _) as [r|] eqn:Q; [|discriminate]. now rewrite (operands_more _ _ _ _ _ H _ _ _ _ Q).
Qed.
Lemma data_more t T width : more t T -> forall l here b, data_bytes t here width l = Some b -> data_bytes T here width l = Some b.
Proof.
  intros H. induction l as [|d l IH]; intros here b E; [exact E|]. cbn [AsmSpec.data_bytes] in *. destruct d as [w|x u y].
  - destruct (val here t (w_expr w)) as [v|] eqn:V; [|discriminate]. rewrite (val_more _ _ _ _ _ H V). destruct (number_bytes ez80 width v); [|discriminate].
    destruct (data_bytes t _ width l) as [r|] eqn:Q; [|discriminate]. now rewrite (IH _ _ Q).
  - destruct (data_bytes t _ width l) as [r|] eqn:Q; [|discriminate]. now rewrite (IH _ _ Q).
Qed.
Lemma fill_more t T here n v r : more t T -> fill_args t here n v = Some r -> fill_args T here n v = Some r.
Proof.
  intros H E. unfold AsmSpec.fill_args in *. destruct (val here t (w_expr n)) as [a|] eqn:V; [|discriminate]. rewrite (val_more _ _ _ _ _ H V).
  destruct v as [w|]; [|exact E]. destruct (val here t (w_expr w)) as [c|] eqn:V2; [|discriminate]. now rewrite (val_more _ _ _ _ _ H V2).
Qed.
Lemma lookup_cons n v t m : lookup ((n, v) :: t) m = if eqbl (fold n) (fold m) then Some v else lookup t m.
Proof. reflexivity. Qed.
Lemma lookup_fold t a b : fold a = fold b -> lookup t a = lookup t b.
Proof. intros H. induction t as [|(m, v) t IH]; [reflexivity|]. rewrite (lookup_cons m v t a), (lookup_cons m v t b), H, IH. reflexivity. Qed.
Lemma after_more now here x now' here' : after now here x = Some (now', here') -> more now now'.
Proof.
  intros E. unfold AsmSpec.after in E. destruct (with_label now here x) as [t|] eqn:W; [|discriminate]. unfold AsmSpec.with_label in W.
  assert (Cons : forall n v, x_label x = Some n -> more now ((n, v) :: now)).
  { intros n v L m w Q. rewrite L in W. destruct (taken n || match lookup now n with Some _ => true | None => false end) eqn:Tk; [discriminate|]. rewrite lookup_cons.
    destruct (eqbl (fold n) (fold m)) eqn:F; [|exact Q]. apply eqbl_eq in F. rewrite (lookup_fold now n m F), Q, Bool.orb_true_r in Tk. discriminate. }
  assert (Ht : more now t).
  { destruct (x_label x) as [n|] eqn:L; [|injection W as <-; intros m w Q; exact Q]. destruct (taken n || _); [discriminate|]. injection W as <-. now apply Cons. }
  destruct (match x_stmt x with SNone => _ | _ => _ end) as [(t2, a)|] eqn:M; [|discriminate]. destruct (small a); [|discriminate]. injection E as <- <-.
  destruct (x_stmt x); try (injection M as <- _; exact Ht).
  - destruct (fill_args t here n v) as [(q1, q2)|]; [|discriminate]. injection M as <- _. exact Ht.
  - destruct (val here t (w_expr e)); [|discriminate]. injection M as <- _. exact Ht.
  - destruct (x_label x) as [n|] eqn:L; [|discriminate]. destruct (val here t (w_expr e)) as [v|]; [|discriminate]. destruct (small v); [|discriminate]. injection M as <- _. now apply Cons.
  - destruct (x_label x) as [n|] eqn:L; [|discriminate]. destruct (val here t (w_expr e)) as [v|]; [|discriminate]. destruct (small v); [|discriminate]. injection M as <- _. now apply Cons.
  - discriminate.
  - discriminate.
Qed.
Lemma symbols_more : forall l now here T, symbols now here l = Some T -> more now T.
Proof.
  induction l as [|x l IH]; intros now here T E; [injection E as <-; intros n v H; exact H|]. cbn [AsmSpec.symbols] in E. destruct (after now here x) as [(n1, h1)|] eqn:A; [|discriminate].
  intros n v H. apply (IH _ _ _ E). now apply (after_more _ _ _ _ _ A).
Qed.

(** ** Moving a definition to the front *)
Definition is_it (L n : text) : bool := eqbl (fold n) (fold L).
(** A section without its definition of [L]. *)
Definition forget (L : text) (x : section) : section :=
  match x_label x with
  | Some n => if is_it L n then mksection None (x_colon x) (x_indent x) (match x_stmt x with SEqu _ _ _ | SSet _ => SNone | y => y end) else x
  | None => x
  end.
Definition forget_line (L : text) (l : line) : line := mkline (forget L (l_first l)) (map (forget L) (l_more l)) (l_comment l) (l_cr l).
Lemma sections_forget L p : sections (map (forget_line L) p) = map (forget L) (sections p).
Proof.
  induction p as [|l p IH]; [reflexivity|]. cbn [map]. unfold sections in *. cbn [flat_map]. rewrite IH. cbn [forget_line l_first l_more].
  change ((forget L (l_first l) :: map (forget L) (l_more l)) ++ map (forget L) (flat_map (fun l => l_first l :: l_more l) p) = map (forget L) ((l_first l :: l_more l) ++ flat_map (fun l => l_first l :: l_more l) p)).
  now rewrite map_app.
Qed.

(** [t1] is [t] with [L] known as [v]. *)
Definition knows (L : text) (v : Z) (t t1 : table) : Prop :=
  (forall n, is_it L n = false -> lookup t1 n = lookup t n) /\ lookup t1 L = Some v /\ (lookup t L = None \/ lookup t L = Some v).
Lemma knows_more L v t t1 : knows L v t t1 -> more t t1.
Proof.
  intros (K1 & K2 & K3) n w H. destruct (is_it L n) eqn:I; [|now rewrite K1]. apply eqbl_eq in I. rewrite (lookup_fold t _ _ I) in H. rewrite (lookup_fold t1 _ _ I). rewrite K2. destruct K3; congruence.
Qed.
Lemma knows_cons L v t t1 n w : knows L v t t1 -> is_it L n = false -> knows L v ((n, w) :: t) ((n, w) :: t1).
Proof.
  intros (K1 & K2 & K3) I. unfold is_it in I. split; [|rewrite !lookup_cons; rewrite I; split; assumption].
  intros m Im. rewrite !lookup_cons. destruct (eqbl (fold n) (fold m)); [reflexivity|now apply K1].
Qed.
Lemma knows_it L v t t1 n w : knows L v t t1 -> is_it L n = true -> lookup t L = None -> w = v -> knows L v ((n, w) :: t) t1.
Proof.
  intros (K1 & K2 & K3) I N ->. unfold is_it in I. split; [|rewrite !lookup_cons; rewrite I; split; [assumption|now right]].
  intros m Im. rewrite lookup_cons. rewrite (K1 m Im). unfold is_it in Im. apply eqbl_eq in I. rewrite I. destruct (eqbl (fold L) (fold m)) eqn:Q; [|reflexivity].
  apply eqbl_eq in Q. rewrite Q in Im. rewrite eqbl_refl in Im. discriminate.
Qed.

Lemma forget_other L x : match x_label x with Some n => is_it L n = false | None => True end -> forget L x = x.
Proof. unfold forget. destruct (x_label x); [|reflexivity]. now intros ->. Qed.
(** The symbols when the statement of a section is reached. *)
Lemma forget_label L v now now1 here x t : knows L v now now1 -> with_label now here x = Some t ->
  (match x_label x with Some n => is_it L n = true -> here = v | None => True end) ->
  exists t1, with_label now1 here (forget L x) = Some t1 /\ knows L v t t1.
Proof.
  intros K W Hv. unfold AsmSpec.with_label in W. destruct (x_label x) as [n|] eqn:Lx.
  - destruct (taken n || match lookup now n with Some _ => true | None => false end) eqn:Tk; [discriminate|]. injection W as <-. destruct (is_it L n) eqn:I.
    + exists now1. unfold forget. rewrite Lx, I. split; [reflexivity|]. apply knows_it; auto. apply Bool.orb_false_iff in Tk as (_ & Tk). unfold is_it in I. apply eqbl_eq in I.
      rewrite <- (lookup_fold now n L I). now destruct (lookup now n).
    + rewrite forget_other by (now rewrite Lx). unfold AsmSpec.with_label. rewrite Lx. rewrite (proj1 K n I), Tk. eexists. split; [reflexivity|]. now apply knows_cons.
  - injection W as <-. rewrite forget_other by (now rewrite Lx). unfold AsmSpec.with_label. rewrite Lx. eauto.
Qed.
Definition assigns (y : stmt) : bool := match y with SEqu _ _ _ | SSet _ => true | _ => false end.
Lemma forget_stmt L x : assigns (x_stmt x) = false -> x_stmt (forget L x) = x_stmt x.
Proof. unfold forget. destruct (x_label x); [|reflexivity]. destruct (is_it L _); [|reflexivity]. cbn [x_stmt]. now destruct (x_stmt x). Qed.
(** What a statement other than an assignment does with the symbols at hand. *)
Definition goto (t : table) (here : Z) (y : stmt) : option Z :=
  match y with
  | SInstr _ sfx _ i _ _ _ _ => Some (here + instr_size ez80 sfx i)
  | SData _ width _ l => Some (here + data_size width l)
  | SFill _ _ n v => match fill_args t here n v with Some (n, _) => Some (here + n) | None => None end
  | SOrg _ _ e => val here t (w_expr e)
  | SCall _ | SPaste _ => None
  | _ => Some here
  end.
Lemma goto_more t T here y a : more t T -> goto t here y = Some a -> goto T here y = Some a.
Proof.
  intros H E. destruct y; cbn [goto] in *; try exact E.
  - destruct (fill_args t here n v) as [r|] eqn:F; [|discriminate]. now rewrite (fill_more _ _ _ _ _ _ H F).
  - now apply (val_more _ _ _ _ _ H).
Qed.
Lemma after_goto now here x : assigns (x_stmt x) = false -> after now here x =
  match with_label now here x with
  | Some t => match goto t here (x_stmt x) with Some a => if small a then Some (t, a) else None | None => None end
  | None => None
  end.
Proof.
  intros A. unfold AsmSpec.after. destruct (with_label now here x) as [t|]; [|reflexivity]. destruct (x_stmt x); try discriminate; try reflexivity; cbn [goto].
  - destruct (fill_args t here n v) as [(q1, q2)|]; reflexivity.
  - destruct (val here t (w_expr e)); reflexivity.
Qed.
Definition assigned (y : stmt) : option written := match y with SEqu _ _ e | SSet e => Some e | _ => None end.
Lemma after_assign now here x e : assigned (x_stmt x) = Some e -> after now here x =
  match with_label now here x with
  | Some t => match x_label x, val here t (w_expr e) with
              | Some n, Some v => if small v && small here then Some ((n, v) :: now, here) else None
              | _, _ => None
              end
  | None => None
  end.
Proof.
  intros A. unfold AsmSpec.after. destruct (with_label now here x) as [t|]; [|reflexivity]. destruct (x_stmt x); try discriminate; cbn in A; injection A as ->.
  all: destruct (x_label x) as [n|]; [|reflexivity]; destruct (val here t (w_expr e)) as [v|]; [|reflexivity]; destruct (small v); reflexivity.
Qed.
Lemma assigns_some y : assigns y = true -> exists e, assigned y = Some e.
Proof. destruct y; try discriminate; cbn; eauto. Qed.

Lemma forget_step L v T now1 x now here now' here' : knows L v now now1 -> lookup T L = Some v -> more now' T -> after now here x = Some (now', here') ->
  exists now1', after now1 here (forget L x) = Some (now1', here') /\ knows L v now' now1'.
Proof.
  intros K LT Mo E. destruct (assigns (x_stmt x)) eqn:As.
  - destruct (assigns_some _ As) as (e & Ae). rewrite (after_assign _ _ _ _ Ae) in E. destruct (with_label now here x) as [t|] eqn:W; [|discriminate].
    destruct (x_label x) as [n|] eqn:Lx; [|discriminate]. destruct (val here t (w_expr e)) as [q|] eqn:V; [|discriminate]. destruct (small q && small here) eqn:Sm; [|discriminate]. injection E as <- <-.
    assert (Nn : taken n || match lookup now n with Some _ => true | None => false end = false) by (unfold AsmSpec.with_label in W; rewrite Lx in W; now destruct (taken n || _)).
    destruct (is_it L n) eqn:I.
    + exists now1. unfold forget. rewrite Lx, I. split.
      * unfold AsmSpec.after, AsmSpec.with_label. cbn [x_label x_stmt]. apply andb_true_iff in Sm as (_ & Sm). destruct (x_stmt x); try discriminate; rewrite Sm; reflexivity.
      * apply knows_it; auto.
        -- apply Bool.orb_false_iff in Nn as (_ & Nn). unfold is_it in I. apply eqbl_eq in I. rewrite <- (lookup_fold now n L I). now destruct (lookup now n).
        -- specialize (Mo L q). rewrite lookup_cons in Mo. unfold is_it in I. rewrite I in Mo. specialize (Mo eq_refl). congruence.
    + rewrite forget_other by (now rewrite Lx). rewrite (after_assign _ _ _ _ Ae), Lx.
      destruct (forget_label L v now now1 here x t K W) as (t1 & W1 & K1). { rewrite Lx. congruence. }
      rewrite forget_other in W1 by (now rewrite Lx). rewrite W1. rewrite (val_more _ _ _ _ _ (knows_more _ _ _ _ K1) V), Sm. eexists. split; [reflexivity|]. now apply knows_cons.
  - rewrite (after_goto _ _ _ As) in E. destruct (with_label now here x) as [t|] eqn:W; [|discriminate]. destruct (goto t here (x_stmt x)) as [a|] eqn:G; [|discriminate]. destruct (small a) eqn:Sm; [|discriminate]. injection E as <- <-.
    destruct (forget_label L v now now1 here x t K W) as (t1 & W1 & K1).
    { destruct (x_label x) as [n|] eqn:Lx; [|exact I]. intros It. unfold AsmSpec.with_label in W. rewrite Lx in W. destruct (taken n || _); [discriminate|]. injection W as <-.
      specialize (Mo L here). rewrite lookup_cons in Mo. unfold is_it in It. rewrite It in Mo. specialize (Mo eq_refl). congruence. }
    exists t1. split; [|exact K1]. rewrite after_goto by (now rewrite forget_stmt). rewrite W1, (forget_stmt L x As), (goto_more _ _ _ _ _ (knows_more _ _ _ _ K1) G), Sm. reflexivity.
Qed.
Lemma forget_emits L v T T1 now1 x now here now' here' b : knows L v now now1 -> lookup T L = Some v -> more now' T -> more T T1 -> after now here x = Some (now', here') ->
  emits T now here x = Some b -> emits T1 now1 here (forget L x) = Some b.
Proof.
  intros K LT Mo M1 E Em. destruct (assigns (x_stmt x)) eqn:As.
  - assert (b = []) as ->. { unfold AsmSpec.emits in Em. destruct (x_stmt x); try discriminate; congruence. }
    unfold forget. destruct (x_label x) as [n|]; [destruct (is_it L n)|]; unfold AsmSpec.emits; cbn [x_stmt]; now destruct (x_stmt x).
  - unfold AsmSpec.emits in *. rewrite (forget_stmt L x As). destruct (x_stmt x) eqn:Sx; try exact Em.
    + now apply (instr_more T).
    + now apply (data_more T).
    + rewrite after_goto in E by (now rewrite Sx). destruct (with_label now here x) as [t|] eqn:W; [|discriminate].
      assert (more t T). { destruct (goto _ _ _); [|discriminate]. destruct (small _); [|discriminate]. injection E as <- _. exact Mo. }
      destruct (forget_label L v now now1 here x t K W) as (t1 & W1 & K1).
      { destruct (x_label x) as [q|] eqn:Lx; [|exact I]. intros It. unfold AsmSpec.with_label in W. rewrite Lx in W. destruct (taken q || _); [discriminate|]. injection W as <-.
        specialize (H L here). rewrite lookup_cons in H. unfold is_it in It. rewrite It in H. specialize (H eq_refl). congruence. }
      rewrite W1. destruct (fill_args t here n v0) as [(c, d)|] eqn:F; [|discriminate]. now rewrite (fill_more _ _ _ _ _ _ (knows_more _ _ _ _ K1) F).
    + destruct (with_label now here x); discriminate.
    + destruct (with_label now here x); discriminate.
Qed.

Lemma forget_symbols L v T : lookup T L = Some v -> forall l now now1 here, knows L v now now1 -> symbols now here l = Some T ->
  exists T1, symbols now1 here (map (forget L) l) = Some T1 /\ knows L v T T1.
Proof.
  intros LT. induction l as [|x l IH]; intros now now1 here K E; [injection E as ->; exists now1; auto|]. cbn [AsmSpec.symbols map] in *.
  destruct (after now here x) as [(n2, h2)|] eqn:A; [|discriminate]. destruct (forget_step L v T now1 x now here n2 h2 K LT (symbols_more _ _ _ _ E) A) as (m & A1 & K1). rewrite A1. now apply (IH n2).
Qed.
Lemma forget_output L v T T1 : lookup T L = Some v -> more T T1 -> forall l now now1 here b, knows L v now now1 -> symbols now here l = Some T -> output T now here l = Some b ->
  output T1 now1 here (map (forget L) l) = Some b.
Proof.
  intros LT M1. induction l as [|x l IH]; intros now now1 here b K E Ob; [exact Ob|]. cbn [AsmSpec.symbols AsmSpec.output map] in *.
  destruct (after now here x) as [(n2, h2)|] eqn:A; [|discriminate]. destruct (forget_step L v T now1 x now here n2 h2 K LT (symbols_more _ _ _ _ E) A) as (m & A1 & K1). rewrite A1.
  destruct (emits T now here x) as [c|] eqn:Em; [|discriminate]. rewrite (forget_emits L v T T1 now1 x now here n2 h2 c K LT (symbols_more _ _ _ _ E) M1 A Em).
  destruct (output T n2 h2 l) as [r|] eqn:Q; [|discriminate]. now rewrite (IH _ _ _ _ K1 E Q).
Qed.

(** The program with [L] defined first, by the statement [y] with the value it has in the end. *)
Definition define_first (L : text) (indent : text) (y : stmt) (p : list line) : list line :=
  mkline (mksection (Some L) true indent y) [] None false :: map (forget_line L) p.
Lemma define_first_same L v indent y e p b T : symbols [] 0 (sections p) = Some T -> lookup T L = Some v -> taken L = false -> assigned y = Some e ->
  val 0 [(L, 0)] (w_expr e) = Some v -> small v = true -> assemble wraps ez80 fold taken p = Some b ->
  assemble wraps ez80 fold taken (define_first L indent y p) = Some b.
Proof.
  intros Sy LT Tk Ay V Sm As. unfold assemble in *. rewrite Sy in As.
  change (sections (define_first L indent y p)) with (mksection (Some L) true indent y :: sections (map (forget_line L) p)). rewrite sections_forget.
  set (x := mksection (Some L) true indent y). assert (Ax : assigned (x_stmt x) = Some e) by exact Ay.
  assert (Ax2 : after [] 0 x = Some ([(L, v)], 0)).
  { rewrite (after_assign _ _ _ _ Ax). unfold AsmSpec.with_label. cbn [x_label x]. change (lookup [] L) with (@None Z). rewrite Tk. cbn [orb isSome]. rewrite V, Sm. reflexivity. }
  assert (Kn : knows L v [] [(L, v)]).
  { split; [|split; [cbn; now rewrite eqbl_refl|now left]]. intros n Hn. cbn. unfold is_it in Hn. destruct (eqbl (fold L) (fold n)) eqn:Q; [|reflexivity]. apply eqbl_eq in Q. rewrite Q, eqbl_refl in Hn. discriminate. }
  destruct (forget_symbols L v T LT (sections p) [] [(L, v)] 0 Kn Sy) as (T1 & S1 & K1).
  cbn [AsmSpec.symbols]. rewrite Ax2, S1. cbn [AsmSpec.output]. rewrite Ax2. rewrite (forget_output L v T T1 LT (knows_more _ _ _ _ K1) _ _ _ _ _ Kn Sy As).
  assert (Em : emits T1 [] 0 x = Some []) by (unfold AsmSpec.emits; cbn [x_stmt x]; now destruct y). now rewrite Em.
Qed.
Lemma defined_free : forall l now here T L v, symbols now here l = Some T -> lookup now L = None -> lookup T L = Some v -> (forall a b, fold a = fold b -> taken a = taken b) -> taken L = false.
Proof.
  induction l as [|x l IH]; intros now here T L v E N H Cg; [injection E as ->; congruence|]. cbn [AsmSpec.symbols] in E. destruct (after now here x) as [(n2, h2)|] eqn:A; [|discriminate].
  destruct (lookup n2 L) as [w|] eqn:Q; [|now apply (IH n2 h2 T L v)].
  assert (Wl : exists n, x_label x = Some n /\ taken n = false /\ fold n = fold L).
  { assert (Cs : forall n w, lookup ((n, w) :: now) L = None \/ fold n = fold L). { intros n u. rewrite lookup_cons. destruct (eqbl (fold n) (fold L)) eqn:F; [right; now apply eqbl_eq|now left]. }
    destruct (assigns (x_stmt x)) eqn:As.
    - destruct (assigns_some _ As) as (e & Ae). rewrite (after_assign _ _ _ _ Ae) in A. unfold AsmSpec.with_label in A. destruct (x_label x) as [n|] eqn:Lx; [|discriminate].
      exists n. split; [reflexivity|]. destruct (taken n) eqn:Tk; [discriminate|]. cbn [orb] in A. destruct (lookup now n); [discriminate|]. destruct (val _ _ _) as [q|]; [|discriminate]. destruct (small q && small here); [|discriminate]. injection A as <- <-.
      split; [reflexivity|]. destruct (Cs n q); [congruence|assumption].
    - rewrite (after_goto _ _ _ As) in A. unfold AsmSpec.with_label in A. destruct (x_label x) as [n|] eqn:Lx.
      + exists n. split; [reflexivity|]. destruct (taken n) eqn:Tk; [discriminate|]. cbn [orb] in A. destruct (lookup now n); [discriminate|]. destruct (goto _ _ _) as [a|]; [|discriminate]. destruct (small a); [|discriminate]. injection A as <- <-.
        split; [reflexivity|]. destruct (Cs n here); [congruence|assumption].
      + destruct (goto _ _ _) as [a|]; [|discriminate]. destruct (small a); [|discriminate]. injection A as <- <-. congruence. }
  destruct Wl as (n & _ & Tn & F). now rewrite <- (Cg _ _ F).
Qed.

(** ** The output section by section *)
Notation reached := (reached wraps ez80 fold taken).
Lemma symbols_split l1 l2 T : forall now here, symbols now here (l1 ++ l2) = Some T ->
  exists now' here', reached now here l1 = Some (now', here') /\ symbols now' here' l2 = Some T.
Proof.
  induction l1 as [|x l1 IH]; intros now here E; [cbn in *; eauto|]. cbn [app AsmSpec.symbols AsmSpec.reached] in *. destruct (after now here x) as [(now', here')|]; [|discriminate]. now apply IH.
Qed.
Lemma output_split T l1 l2 : forall now here b now' here', reached now here l1 = Some (now', here') -> output T now here (l1 ++ l2) = Some b ->
  exists b1 b2, output T now here l1 = Some b1 /\ output T now' here' l2 = Some b2 /\ b = b1 ++ b2.
Proof.
  induction l1 as [|x l1 IH]; intros now here b now' here' W E.
  - cbn in W. injection W as <- <-. exists [], b. auto.
  - cbn [app AsmSpec.output AsmSpec.reached] in *. destruct (emits T now here x) as [c|]; [|discriminate]. destruct (after now here x) as [(n1, h1)|]; [|discriminate].
    destruct (output T n1 h1 (l1 ++ l2)) as [r|] eqn:Er; [|discriminate]. injection E as <-. destruct (IH _ _ _ _ _ W Er) as (b1 & b2 & -> & E2 & ->).
    exists (c ++ b1), b2. rewrite app_assoc. auto.
Qed.
Lemma output_cons T x l now here b : output T now here (x :: l) = Some b ->
  exists c r now' here', emits T now here x = Some c /\ after now here x = Some (now', here') /\ output T now' here' l = Some r /\ b = c ++ r.
Proof.
  cbn [AsmSpec.output]. destruct (emits T now here x) as [c|]; [|discriminate]. destruct (after now here x) as [(n, h)|]; [|discriminate]. destruct (output T n h l) as [r|] eqn:Q; [|discriminate].
  intros E. injection E as <-. exists c, r, n, h. rewrite Q. auto.
Qed.

(** ** Lengths *)
Lemma le_length n : forall v, length (le n v) = n.
Proof. induction n; intros v; [reflexivity|]. cbn. now rewrite IHn. Qed.
Lemma le_nth n : forall v j, (j < n)%nat -> nth j (le n v) 0 = v / 256 ^ Z.of_nat j mod 256.
Proof.
  induction n as [|n IH]; intros v j Hj; [lia|]. destruct j as [|j]; [cbn; now rewrite Z.div_1_r|]. cbn [le nth]. rewrite IH by lia.
  rewrite Nat2Z.inj_succ, Z.pow_succ_r by lia. rewrite Z.div_div by lia. reflexivity.
Qed.
Lemma number_le width v b : number_bytes ez80 width v = Some b -> b = le width v.
Proof.
  unfold number_bytes. destruct width as [|[|[|w]]]; intros E.
  - now injection E as <-.
  - destruct (within (-128) v 255); [now injection E as <-|discriminate].
  - destruct (negb ez80 || within (-32768) v 65535); [now injection E as <-|discriminate].
  - now injection E as <-.
Qed.
Lemma operand_len long here size c v b : c <> ch "^" -> is_wild c = true -> operand_bytes ez80 long here size c v = Some b -> zlen b = operand_width long c.
Proof.
  intros Nc Wc. unfold operand_bytes, operand_width. destruct (c =? ch "*") eqn:E1.
  - intros E. apply number_le in E. subst. unfold zlen. rewrite le_length. now destruct long.
  - destruct (c =? ch "&") eqn:E2; [intros E; apply number_le in E; subst; reflexivity|]. destruct (c =? ch "%") eqn:E3; [cbv zeta; destruct (within _ _ _); [|discriminate]; intros E; injection E as <-; reflexivity|].
    destruct (c =? ch "@") eqn:E4; [destruct (within _ _ _); [|discriminate]; intros E; injection E as <-; reflexivity|].
    destruct (memb v _); [|discriminate]. intros E. injection E as <-. assert (E5 : c =? ch "#" = true).
    { unfold is_wild in Wc. apply memb_In in Wc. change (zs "*&%@#^") with [ch "*"; ch "&"; ch "%"; ch "@"; ch "#"; ch "^"] in Wc. simpl in Wc. lia. }
    rewrite E5. reflexivity.
Qed.
Lemma operands_len t long here size : forall pat es bit b x, operands_bytes t long here size pat es bit = Some (b, x) -> zlen b = operands_width long pat.
Proof.
  induction pat as [|c pat IH]; intros es bit b x E.
  - cbn in E. destruct es; [|discriminate]. injection E as <- _. reflexivity.
  - cbn [AsmSpec.operands_bytes] in E. change (operands_width long (c :: pat)) with (operand_width long c + operands_width long pat). destruct (is_wild c) eqn:Wc.
    + destruct es as [|e es]; [discriminate|]. destruct (val here t e) as [v|]; [|discriminate]. destruct (c =? ch "^") eqn:Ec.
      * destruct (within 0 v 7); [|discriminate]. apply Z.eqb_eq in Ec. subst c. rewrite (IH _ _ _ _ E). reflexivity.
      * destruct (operand_bytes ez80 long here size c v) as [b1|] eqn:Eb; [|discriminate]. destruct (operands_bytes t long here size pat es bit) as [(b2, x2)|] eqn:Q; [|discriminate]. injection E as <- <-.
        rewrite zlen_app, (IH _ _ _ _ Q). f_equal. apply (operand_len long here size c v); auto. now apply Z.eqb_neq.
    + rewrite (IH _ _ _ _ E). enough (operand_width long c = 0) by lia. unfold is_wild in Wc. unfold operand_width.
      assert (N : ~ In c (zs "*&%@#^")) by (intros H; apply memb_In in H; congruence). change (zs "*&%@#^") with [ch "*"; ch "&"; ch "%"; ch "@"; ch "#"; ch "^"] in N. simpl in N.
      replace (c =? ch "*") with false by lia. replace (c =? ch "&") with false by lia. replace (c =? ch "%") with false by lia. replace (c =? ch "@") with false by lia. replace (c =? ch "#") with false by lia. reflexivity.
Qed.
Lemma instr_len t here sfx i es b : instr_bytes t here sfx i es = Some b -> zlen b = instr_size ez80 sfx i.
Proof.
  unfold AsmSpec.instr_bytes, instr_size. destruct (operands_bytes _ _ _ _ _ _ _) as [(r, x)|] eqn:Q; [|discriminate]. intros E. injection E as <-.
  rewrite !zlen_app, (operands_len _ _ _ _ _ _ _ _ _ Q). destruct (i_has_end i); change (zlen []) with 0; unfold zlen; cbn [length]; lia.
Qed.
Lemma data_len t width : forall l here b, data_bytes t here width l = Some b -> zlen b = data_size width l.
Proof.
  induction l as [|d l IH]; intros here b E; [injection E as <-; reflexivity|]. cbn [AsmSpec.data_bytes] in E. change (data_size width (d :: l)) with (match d with DStr _ u _ => zlen u | DNum _ => Z.of_nat width end + data_size width l).
  destruct d as [w|x u y].
  - destruct (val here t (w_expr w)) as [v|]; [|discriminate]. destruct (number_bytes ez80 width v) as [c|] eqn:N; [|discriminate]. destruct (data_bytes t _ width l) as [r|] eqn:Q; [|discriminate]. injection E as <-.
    rewrite zlen_app, (IH _ _ Q). apply number_le in N. subst. unfold zlen at 1. now rewrite le_length.
  - destruct (data_bytes t _ width l) as [r|] eqn:Q; [|discriminate]. injection E as <-. now rewrite zlen_app, (IH _ _ Q).
Qed.
Definition moves_only (x : section) : bool := match x_stmt x with SOrg _ _ _ => true | _ => false end.
Lemma emits_len T now here x now' here' b : moves_only x = false -> emits T now here x = Some b -> after now here x = Some (now', here') -> here' = here + zlen b.
Proof.
  intros Nm Em A. destruct (assigns (x_stmt x)) eqn:As.
  - destruct (assigns_some _ As) as (e & Ae). rewrite (after_assign _ _ _ _ Ae) in A. destruct (with_label now here x); [|discriminate]. destruct (x_label x); [|discriminate]. destruct (val _ _ _); [|discriminate]. destruct (small _ && _); [|discriminate].
    injection A as _ <-. unfold AsmSpec.emits in Em. destruct (x_stmt x); try discriminate; injection Em as <-; change (zlen []) with 0; lia.
  - rewrite (after_goto _ _ _ As) in A. unfold AsmSpec.emits in Em. unfold moves_only in Nm. destruct (with_label now here x) as [t|]; [|discriminate]. destruct (goto t here (x_stmt x)) as [a|] eqn:G; [|discriminate]. destruct (small a); [|discriminate]. injection A as _ <-.
    destruct (x_stmt x); try discriminate; cbn [goto] in G.
    + injection G as <-. injection Em as <-. change (zlen []) with 0. lia.
    + injection G as <-. now rewrite (instr_len _ _ _ _ _ _ Em).
    + injection G as <-. now rewrite (data_len _ _ _ _ _ Em).
    + destruct (fill_args t here n v) as [(c, d)|] eqn:F; [|discriminate]. injection G as <-. injection Em as <-. unfold zlen. rewrite repeat_length.
      unfold AsmSpec.fill_args in F. destruct (val here t (w_expr n)) as [c'|]; [|discriminate]. destruct (match v with Some w => _ | None => _ end) as [d'|]; [|discriminate]. destruct (within 0 c' 8000000 && _) eqn:W; [|discriminate]. injection F as -> ->.
      unfold within in W. lia.
Qed.
Lemma output_len T : forall l now here now' here' b, forallb (fun x => negb (moves_only x)) l = true -> output T now here l = Some b -> reached now here l = Some (now', here') -> here' = here + zlen b.
Proof.
  induction l as [|x l IH]; intros now here now' here' b F Ob Re.
  - injection Ob as <-. injection Re as _ <-. change (zlen []) with 0. lia.
  - destruct (output_cons _ _ _ _ _ _ Ob) as (c & r & n1 & h1 & Em & A & Or & ->). cbn [AsmSpec.reached] in Re. rewrite A in Re. cbn [forallb] in F. apply andb_true_iff in F as (F1 & F2).
    rewrite zlen_app. pose proof (IH _ _ _ _ _ F2 Or Re). pose proof (emits_len T now here x n1 h1 c ltac:(now destruct (moves_only x)) Em A). lia.
Qed.
(** A label has the address reached where it stands. *)
Lemma label_address T l now here x n now' here' : x_label x = Some n -> assigns (x_stmt x) = false -> after now here x = Some (now', here') -> symbols now' here' l = Some T -> lookup T n = Some here.
Proof.
  intros Lx As A Sy. apply (symbols_more _ _ _ _ Sy). rewrite (after_goto _ _ _ As) in A. unfold AsmSpec.with_label in A. rewrite Lx in A. destruct (taken n || _); [discriminate|].
  destruct (goto _ _ _) as [a|]; [|discriminate]. destruct (small a); [|discriminate]. injection A as <- _. rewrite lookup_cons. now rewrite eqbl_refl.
Qed.
End Ref.
