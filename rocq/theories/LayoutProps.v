(** How a program is written does not matter (C72): layout, notation of numbers, letter case and the names
    of labels. *)
From Verif Require Import Base BaseProofs State StorageModel OpcodeTables MainModel UtilsModel UtilsSpec UtilsProofs StorageSpec
  ParserSpec ParserProofs Knot ExportModel ExportSpec InstrSpec MatchSpec MatchProofs MatchProps AsmSpec AsmExpand AsmProofs AsmRef AsmRun AsmProps.
#[local] Existing Instance no_params.
#[local] Existing Instance no_calls.

(** ** Programs that say the same *)
Section Same.
(** Which names of the first program correspond to which names of the second. *)
Variable R : text -> text -> Prop.
(** Expressions with the same value, whatever the value of the symbols. *)
Definition same_expr (e e' : expr) : Prop := forall wraps here names names', (forall n n', R n n' -> names n = names' n') ->
  forall v, value wraps here names e = Val v -> value wraps here names' e' = Val v.
Inductive same_datum : datum -> datum -> Prop :=
  | Same_num w w' : same_expr (w_expr w) (w_expr w') -> same_datum (DNum w) (DNum w')
  | Same_str b t a b' a' : same_datum (DStr b t a) (DStr b' t a').
(** The definition of a symbol. *)
Definition assigns (x : stmt) : option written := match x with SEqu _ _ e | SSet e => Some e | _ => None end.
Inductive same_stmt (ez80 : bool) : stmt -> stmt -> Prop :=
  | Same_none : same_stmt ez80 SNone SNone
  | Same_instr name sfx o i gap ws texts es name' sfx' o' gap' ws' texts' es' : suffix_of ez80 sfx = suffix_of ez80 sfx' -> Forall2 same_expr es es' ->
      same_stmt ez80 (SInstr name sfx o i gap ws texts es) (SInstr name' sfx' o' i gap' ws' texts' es')
  | Same_data word width gap l word' gap' l' : Forall2 same_datum l l' -> same_stmt ez80 (SData word width gap l) (SData word' width gap' l')
  | Same_fill word gap n v word' gap' n' v' : same_expr (w_expr n) (w_expr n') ->
      match v, v' with None, None => True | Some w, Some w' => same_expr (w_expr w) (w_expr w') | _, _ => False end ->
      same_stmt ez80 (SFill word gap n v) (SFill word' gap' n' v')
  | Same_org word gap e word' gap' e' : same_expr (w_expr e) (w_expr e') -> same_stmt ez80 (SOrg word gap e) (SOrg word' gap' e')
  | Same_assign x e x' e' : assigns x = Some e -> assigns x' = Some e' -> same_expr (w_expr e) (w_expr e') -> same_stmt ez80 x x'.
Definition same_section (ez80 : bool) (x x' : section) : Prop :=
  match x_label x, x_label x' with None, None => True | Some n, Some n' => R n n' | _, _ => False end /\ same_stmt ez80 (x_stmt x) (x_stmt x').
Definition empty (x : section) : Prop := x_label x = None /\ x_stmt x = SNone.
(** A label and its statement. *)
Definition only_label (x : section) : section := mksection (x_label x) (x_colon x) [] SNone.
Definition only_stmt (x : section) : section := mksection None false (x_indent x) (x_stmt x).
(** The same statements in the same order; how they are distributed over lines, and empty lines, do not matter,
    and a label may have a line of its own unless it is assigned a value. *)
Inductive same_sections (ez80 : bool) : list section -> list section -> Prop :=
  | Same_nil : same_sections ez80 [] []
  | Same_cons x x' l l' : same_section ez80 x x' -> same_sections ez80 l l' -> same_sections ez80 (x :: l) (x' :: l')
  | Same_left x l l' : empty x -> same_sections ez80 l l' -> same_sections ez80 (x :: l) l'
  | Same_right x l l' : empty x -> same_sections ez80 l l' -> same_sections ez80 l (x :: l')
  | Same_own_left x l l' : assigns (x_stmt x) = None -> same_sections ez80 (only_label x :: only_stmt x :: l) l' -> same_sections ez80 (x :: l) l'
  | Same_own_right x l l' : assigns (x_stmt x) = None -> same_sections ez80 l (only_label x :: only_stmt x :: l') -> same_sections ez80 l (x :: l').
Definition same_program (ez80 : bool) (p p' : list line) : Prop := same_sections ez80 (sections p) (sections p').

(** ** The reference assembler does not see the difference *)
Variables wraps ez80 : bool.
Variables fold fold' : text -> text.
Variables taken taken' : text -> bool.
(** Different names stay different, and names that are free stay free. *)
Hypothesis one_to_one : forall n n' m m', R n n' -> R m m' -> (fold n = fold m <-> fold' n' = fold' m').
Hypothesis stay_free : forall n n', R n n' -> taken n = false -> taken' n' = false.
Definition agree (t t' : table) : Prop := forall n n', R n n' -> assoc fold t n = assoc fold' t' n'.
Lemma lookup_assoc f t n : lookup f t n = assoc f t n.
Proof. reflexivity. Qed.
Lemma agree_cons t t' n n' v : R n n' -> agree t t' -> agree ((n, v) :: t) ((n', v) :: t').
Proof.
  intros Hn A m m' Hm. cbn [assoc]. rewrite (A m m' Hm). destruct (one_to_one n n' m m' Hn Hm) as (H1 & H2).
  destruct (eqbl (fold n) (fold m)) eqn:E1, (eqbl (fold' n') (fold' m')) eqn:E2; try reflexivity.
  - apply eqbl_eq in E1. rewrite (H1 E1) in E2. now rewrite (proj2 (eqbl_eq _ _) eq_refl) in E2.
  - apply eqbl_eq in E2. rewrite (H2 E2) in E1. now rewrite (proj2 (eqbl_eq _ _) eq_refl) in E1.
Qed.
Lemma val_same e e' t t' here v : same_expr e e' -> agree t t' -> val wraps fold here t e = Some v -> val wraps fold' here t' e' = Some v.
Proof.
  intros S A. unfold val. destruct (value wraps here (lookup fold t) e) as [x| |] eqn:E; try discriminate. intros [= ->].
  assert (A' : forall n n', R n n' -> lookup fold t n = lookup fold' t' n') by (intros n n' H; rewrite !lookup_assoc; now apply A).
  now rewrite (S wraps here _ _ A' v E).
Qed.
Lemma long_same sfx sfx' : suffix_of ez80 sfx = suffix_of ez80 sfx' -> long_mode ez80 sfx = long_mode ez80 sfx' /\ prefix_bytes ez80 sfx = prefix_bytes ez80 sfx'.
Proof. unfold long_mode, prefix_bytes. now intros ->. Qed.
Lemma size_same sfx sfx' i : suffix_of ez80 sfx = suffix_of ez80 sfx' -> instr_size ez80 sfx i = instr_size ez80 sfx' i.
Proof. intros E. unfold instr_size. destruct (long_same _ _ E) as (-> & ->). reflexivity. Qed.
Lemma operands_same t t' long here size : agree t t' -> forall pat es es' bit r, Forall2 same_expr es es' ->
  operands_bytes wraps ez80 fold t long here size pat es bit = Some r -> operands_bytes wraps ez80 fold' t' long here size pat es' bit = Some r.
Proof.
  intros A. induction pat as [|c pat IH]; intros es es' bit r F E; cbn [operands_bytes] in *.
  - destruct F; [exact E|discriminate].
  - destruct (is_wild c); [|now apply (IH es)]. destruct F as [|e e' es es' S F]; [discriminate|].
    destruct (val wraps fold here t e) as [v|] eqn:V; [|discriminate]. rewrite (val_same _ _ _ _ _ _ S A V).
    destruct (c =? ch "^"); [destruct (within 0 v 7); [now apply (IH es)|discriminate]|].
    destruct (operand_bytes ez80 long here size c v); [|discriminate].
    destruct (operands_bytes wraps ez80 fold t long here size pat es bit) as [(r1, x1)|] eqn:E1; [|discriminate]. rewrite (IH _ _ _ _ F E1). exact E.
Qed.
Lemma instr_same t t' here sfx sfx' i es es' b : agree t t' -> suffix_of ez80 sfx = suffix_of ez80 sfx' -> Forall2 same_expr es es' ->
  instr_bytes wraps ez80 fold t here sfx i es = Some b -> instr_bytes wraps ez80 fold' t' here sfx' i es' = Some b.
Proof.
  intros A S F. unfold instr_bytes. rewrite (size_same _ _ i S). destruct (long_same _ _ S) as (-> & ->).
  destruct (operands_bytes wraps ez80 fold _ _ _ _ _ _ _) as [(r, x)|] eqn:E; [|discriminate]. now rewrite (operands_same _ _ _ _ _ A _ _ _ _ _ F E).
Qed.
Lemma data_same t t' width : agree t t' -> forall l l' here b, Forall2 same_datum l l' ->
  data_bytes wraps ez80 fold t here width l = Some b -> data_bytes wraps ez80 fold' t' here width l' = Some b.
Proof.
  intros A l l' here b F. revert here b. induction F as [|d d' l l' S F IH]; intros here b E; [exact E|]. destruct S as [w w' S|? u ? ? ?]; cbn [data_bytes] in *.
  - destruct (val wraps fold here t (w_expr w)) as [v|] eqn:V; [|discriminate]. rewrite (val_same _ _ _ _ _ _ S A V). destruct (number_bytes ez80 width v); [|discriminate].
    destruct (data_bytes wraps ez80 fold t _ width l) as [r|] eqn:D; [|discriminate]. now rewrite (IH _ _ D).
  - destruct (data_bytes wraps ez80 fold t _ width l) as [r|] eqn:D; [|discriminate]. now rewrite (IH _ _ D).
Qed.
Lemma data_size_same width l l' : Forall2 same_datum l l' -> data_size width l = data_size width l'.
Proof. induction 1 as [|d d' l l' S F IH]; [reflexivity|]. unfold data_size in *. cbn [fold_right]. rewrite IH. now destruct S. Qed.
Lemma fill_same t t' here n n' v v' r : agree t t' -> same_expr (w_expr n) (w_expr n') ->
  match v, v' with None, None => True | Some w, Some w' => same_expr (w_expr w) (w_expr w') | _, _ => False end ->
  fill_args wraps fold t here n v = Some r -> fill_args wraps fold' t' here n' v' = Some r.
Proof.
  intros A S Sv. unfold fill_args. destruct (val wraps fold here t (w_expr n)) as [a|] eqn:V; [|discriminate]. rewrite (val_same _ _ _ _ _ _ S A V).
  destruct v as [w|], v' as [w'|]; try contradiction; [|exact (fun H => H)]. destruct (val wraps fold here t (w_expr w)) as [a2|] eqn:V2; [|discriminate]. now rewrite (val_same _ _ _ _ _ _ Sv A V2).
Qed.
Lemma label_same t t' here x x' now : agree t t' -> match x_label x, x_label x' with None, None => True | Some n, Some n' => R n n' | _, _ => False end ->
  with_label fold taken t here x = Some now -> exists now', with_label fold' taken' t' here x' = Some now' /\ agree now now'.
Proof.
  intros A L E. unfold with_label in *. destruct (x_label x) as [n|], (x_label x') as [n'|]; try contradiction.
  - rewrite !lookup_assoc in *. rewrite <- (A n n' L). destruct (taken n) eqn:T; [discriminate|]. rewrite (stay_free n n' L T). cbn [orb] in *.
    destruct (assoc fold t n); [discriminate|]. injection E as <-. eexists. split; [reflexivity|now apply agree_cons].
  - injection E as <-. exists t'. auto.
Qed.
Lemma after_same t t' here x x' now here' : agree t t' -> same_section ez80 x x' -> after wraps ez80 fold taken t here x = Some (now, here') ->
  exists now', after wraps ez80 fold' taken' t' here x' = Some (now', here') /\ agree now now'.
Proof.
  intros A (L & S) E. unfold after in *. destruct (with_label fold taken t here x) as [n0|] eqn:W; [|discriminate].
  destruct (label_same _ _ _ _ _ _ A L W) as (n1 & W1 & A1). rewrite W1.
  assert (G : forall k : table, Some (k, here') <> None) by discriminate.
  destruct S as [|name sfx o i gap ws texts es name' sfx' o' gap' ws' texts' es' S F|word width gap l word' gap' l' F|word gap n v word' gap' n' v' S Sv|word gap e word' gap' e' S|y e y' e' E1 E2 S].
  - destruct (small here); [|discriminate]. injection E as <- <-. eauto.
  - rewrite <- (size_same _ _ i S). destruct (small _); [|discriminate]. injection E as <- <-. eauto.
  - rewrite <- (data_size_same width _ _ F). destruct (small _); [|discriminate]. injection E as <- <-. eauto.
  - destruct (fill_args wraps fold n0 here n v) as [(a, b)|] eqn:Fa; [|discriminate]. rewrite (fill_same _ _ _ _ _ _ _ _ A1 S Sv Fa). destruct (small _); [|discriminate]. injection E as <- <-. eauto.
  - destruct (val wraps fold here n0 (w_expr e)) as [a|] eqn:V; [|discriminate]. rewrite (val_same _ _ _ _ _ _ S A1 V). destruct (small _); [|discriminate]. injection E as <- <-. eauto.
  - assert (D : exists v n, x_label x = Some n /\ val wraps fold here n0 (w_expr e) = Some v /\ small v = true /\ small here = true /\ now = (n, v) :: t /\ here' = here).
    { destruct y; cbn [assigns] in E1; try discriminate; injection E1 as ->; (destruct (x_label x) as [n|]; [|discriminate]); (destruct (val wraps fold here n0 (w_expr e)) as [v|]; [|discriminate]);
        (destruct (small v) eqn:Sv; [|discriminate]); (destruct (small here) eqn:Sh; [|discriminate]); injection E as <- <-; exists v, n; repeat split; assumption. }
    destruct D as (v & n & Ln & V & Sv & Sh & -> & ->). rewrite Ln in L. destruct (x_label x') as [n'|] eqn:Ln'; [|contradiction].
    exists ((n', v) :: t'). split; [|now apply agree_cons]. pose proof (val_same _ _ _ _ _ _ S A1 V) as V1.
    destruct y'; cbn [assigns] in E2; try discriminate; injection E2 as ->; rewrite V1, Sv, Sh; reflexivity.
Qed.
Lemma emits_same T T' t t' here x x' b : agree T T' -> agree t t' -> same_section ez80 x x' -> emits wraps ez80 fold taken T t here x = Some b ->
  emits wraps ez80 fold' taken' T' t' here x' = Some b.
Proof.
  intros AT A (L & S) E. unfold emits in *.
  destruct S as [|name sfx o i gap ws texts es name' sfx' o' gap' ws' texts' es' S F|word width gap l word' gap' l' F|word gap n v word' gap' n' v' S Sv|word gap e word' gap' e' S|y e y' e' E1 E2 S].
  - exact E.
  - now apply (instr_same T T' here sfx sfx' i es es' b AT S F).
  - now apply (data_same T T' width AT l).
  - destruct (with_label fold taken t here x) as [n0|] eqn:W; [|discriminate]. destruct (label_same _ _ _ _ _ _ A L W) as (n1 & W1 & A1). rewrite W1.
    destruct (fill_args wraps fold n0 here n v) as [(a, c)|] eqn:Fa; [|discriminate]. now rewrite (fill_same _ _ _ _ _ _ _ _ A1 S Sv Fa).
  - exact E.
  - destruct y; cbn [assigns] in E1; try discriminate; destruct y'; cbn [assigns] in E2; try discriminate; exact E.
Qed.
Lemma empty_after f tk t here x : empty x -> small here = true -> after wraps ez80 f tk t here x = Some (t, here).
Proof. intros (L & S) H. unfold after, with_label. now rewrite L, S, H. Qed.
Lemma after_small t here x now here' : after wraps ez80 fold taken t here x = Some (now, here') -> small here' = true.
Proof.
  unfold after. destruct (with_label _ _ _ _ _); [|discriminate]. match goal with |- (match ?m with _ => _ end) = _ -> _ => destruct m as [(a, b)|]; [|discriminate] end.
  destruct (small b) eqn:E; [|discriminate]. intros [= <- <-]. exact E.
Qed.
Lemma own_after f tk t here x : assigns (x_stmt x) = None -> small here = true ->
  after wraps ez80 f tk t here x = match after wraps ez80 f tk t here (only_label x) with Some (n, h) => after wraps ez80 f tk n h (only_stmt x) | None => None end.
Proof.
  intros As Sm. unfold after, only_label, only_stmt, with_label. cbn [x_label x_stmt]. destruct (x_label x) as [n|].
  - destruct (tk n || _); [reflexivity|]. rewrite Sm. destruct (x_stmt x); try discriminate; reflexivity.
  - rewrite Sm. destruct (x_stmt x); try discriminate; reflexivity.
Qed.
Lemma own_emits f tk T t here x n h : assigns (x_stmt x) = None -> small here = true -> after wraps ez80 f tk t here (only_label x) = Some (n, h) ->
  emits wraps ez80 f tk T t here x = emits wraps ez80 f tk T n h (only_stmt x).
Proof.
  intros As Sm. unfold after, emits, only_label, only_stmt, with_label. cbn [x_label x_stmt]. rewrite Sm. destruct (x_label x) as [m|].
  - destruct (tk m || _); [discriminate|]. intros [= <- <-]. destruct (x_stmt x); try discriminate; reflexivity.
  - intros [= <- <-]. destruct (x_stmt x); try discriminate; reflexivity.
Qed.
Lemma own_symbols f tk t here x l : assigns (x_stmt x) = None -> small here = true ->
  symbols wraps ez80 f tk t here (x :: l) = symbols wraps ez80 f tk t here (only_label x :: only_stmt x :: l).
Proof. intros As Sm. cbn [symbols]. rewrite (own_after f tk t here x As Sm). now destruct (after _ _ _ _ t here (only_label x)) as [(n, h)|]. Qed.
Lemma own_output f tk T t here x l : assigns (x_stmt x) = None -> small here = true ->
  output wraps ez80 f tk T t here (x :: l) = output wraps ez80 f tk T t here (only_label x :: only_stmt x :: l).
Proof.
  intros As Sm. cbn [output]. rewrite (own_after f tk t here x As Sm). change (emits wraps ez80 f tk T t here (only_label x)) with (@Some (list Z) []).
  destruct (after _ _ _ _ t here (only_label x)) as [(n, h)|] eqn:E; [|now destruct (emits _ _ _ _ T t here x)]. rewrite (own_emits f tk T t here x n h As Sm E).
  destruct (emits _ _ _ _ T n h (only_stmt x)) as [b|]; [|reflexivity]. destruct (after _ _ _ _ n h (only_stmt x)) as [(n1, h1)|]; [|reflexivity]. now destruct (output _ _ _ _ T n1 h1 l).
Qed.
Lemma symbols_same l l' : same_sections ez80 l l' -> forall t t' here T, agree t t' -> small here = true -> symbols wraps ez80 fold taken t here l = Some T ->
  exists T', symbols wraps ez80 fold' taken' t' here l' = Some T' /\ agree T T'.
Proof.
  induction 1 as [|x x' l l' S F IH|x l l' Em F IH|x l l' Em F IH|x l l' As F IH|x l l' As F IH]; intros t t' here T A Sm E.
  - injection E as <-. exists t'. auto.
  - cbn [symbols] in *. destruct (after _ _ _ _ t here x) as [(n, h)|] eqn:Af; [|discriminate]. destruct (after_same _ _ _ _ _ _ _ A S Af) as (n' & Af' & A'). rewrite Af'.
    apply (IH n n' h T A'); [exact (after_small _ _ _ _ _ Af)|exact E].
  - cbn [symbols] in E. rewrite (empty_after fold taken t here x Em Sm) in E. exact (IH t t' here T A Sm E).
  - cbn [symbols]. rewrite (empty_after fold' taken' t' here x Em Sm). exact (IH t t' here T A Sm E).
  - rewrite (own_symbols _ _ _ _ _ _ As Sm) in E. exact (IH t t' here T A Sm E).
  - rewrite (own_symbols _ _ _ _ _ _ As Sm). exact (IH t t' here T A Sm E).
Qed.
Lemma output_same l l' : same_sections ez80 l l' -> forall T T' t t' here b, agree T T' -> agree t t' -> small here = true -> output wraps ez80 fold taken T t here l = Some b ->
  output wraps ez80 fold' taken' T' t' here l' = Some b.
Proof.
  induction 1 as [|x x' l l' S F IH|x l l' Em F IH|x l l' Em F IH|x l l' As F IH|x l l' As F IH]; intros T T' t t' here b AT A Sm E.
  - exact E.
  - cbn [output] in *. destruct (emits _ _ _ _ T t here x) as [b1|] eqn:E1; [|discriminate]. rewrite (emits_same _ _ _ _ _ _ _ _ AT A S E1).
    destruct (after _ _ _ _ t here x) as [(n, h)|] eqn:Af; [|discriminate]. destruct (after_same _ _ _ _ _ _ _ A S Af) as (n' & Af' & A'). rewrite Af'.
    destruct (output _ _ _ _ T n h l) as [r|] eqn:O; [|discriminate]. now rewrite (IH T T' n n' h r AT A' (after_small _ _ _ _ _ Af) O).
  - cbn [output] in E. rewrite (empty_after fold taken t here x Em Sm) in E. unfold emits in E. rewrite (proj2 Em) in E.
    destruct (output _ _ _ _ T t here l) as [r|] eqn:O; [|discriminate]. rewrite (IH T T' t t' here r AT A Sm O). exact E.
  - cbn [output]. rewrite (empty_after fold' taken' t' here x Em Sm). unfold emits. rewrite (proj2 Em). now rewrite (IH T T' t t' here b AT A Sm E).
  - rewrite (own_output _ _ _ _ _ _ _ As Sm) in E. exact (IH T T' t t' here b AT A Sm E).
  - rewrite (own_output _ _ _ _ _ _ _ As Sm). exact (IH T T' t t' here b AT A Sm E).
Qed.
Lemma assemble_alike p p' b : same_program ez80 p p' -> assemble wraps ez80 fold taken p = Some b -> assemble wraps ez80 fold' taken' p' = Some b.
Proof.
  intros S E. unfold assemble in *. destruct (symbols _ _ _ _ [] 0 (sections p)) as [T|] eqn:Sy; [|discriminate].
  assert (A0 : agree [] []) by (intros n n' _; reflexivity). destruct (symbols_same _ _ S [] [] 0 T A0 eq_refl Sy) as (T' & Sy' & AT). rewrite Sy'. now apply (output_same _ _ S T T' [] [] 0 b AT A0 eq_refl).
Qed.
End Same.

(** ** Expressions that say the same *)
Section Expressions.
Variable R : text -> text -> Prop.
Definition same_term (t t' : term) : Prop := same_expr R (Single t) (Single t').
Lemma same_name n n' : R n n' -> same_term (Leaf NoSign (Name n)) (Leaf NoSign (Name n')).
Proof. intros H wraps here names names' Hn v. cbn. now rewrite (Hn n n' H). Qed.
(** Numbers in any notation, and characters. *)
Lemma same_number a a' : atom_value 0 (fun _ => None) a = atom_value 0 (fun _ => None) a' -> a <> Here -> a' <> Here -> (forall n, a <> Name n) -> (forall n, a' <> Name n) ->
  same_term (Leaf NoSign a) (Leaf NoSign a').
Proof.
  intros E H1 H2 N1 N2 wraps here names names' Hn v. change (andthen (atom_value here names a) (apply_sign wraps NoSign) = Val v -> andthen (atom_value here names' a') (apply_sign wraps NoSign) = Val v).
  replace (atom_value here names a) with (atom_value 0 (fun _ => None) a) by (destruct a; try reflexivity; [now destruct H1|now destruct (N1 n)]).
  replace (atom_value here names' a') with (atom_value 0 (fun _ => None) a') by (destruct a'; try reflexivity; [now destruct H2|now destruct (N2 n)]).
  rewrite E. exact (fun H => H).
Qed.
Lemma same_bin e e' o t t' : same_expr R e e' -> same_term t t' -> same_expr R (Bin e o t) (Bin e' o t').
Proof.
  intros H1 H2 wraps here names names' Hn v.
  change (andthen (value wraps here names e) (fun a => andthen (term_value wraps here names t) (fun b => compute wraps o a b)) = Val v ->
    andthen (value wraps here names' e') (fun a => andthen (term_value wraps here names' t') (fun b => compute wraps o a b)) = Val v).
  destruct (value wraps here names e) as [a| |] eqn:E1; try discriminate. rewrite (H1 _ _ _ _ Hn a E1). cbn [andthen].
  destruct (term_value wraps here names t) as [b| |] eqn:E2; try discriminate. pose proof (H2 _ _ _ _ Hn b E2) as E3. change (term_value wraps here names' t' = Val b) in E3. rewrite E3. exact (fun H => H).
Qed.
Lemma same_parentheses e e' : same_expr R e e' -> same_expr R e (Single (Par NoSign e')).
Proof.
  intros H wraps here names names' Hn v E. change (andthen (value wraps here names' e') (apply_sign wraps NoSign) = Val v). now rewrite (H _ _ _ _ Hn v E).
Qed.
(** The order of two operands of + does not matter. *)
Lemma same_sum t t' u u' : same_term t t' -> same_term u u' -> same_expr R (Bin (Single t) Plus u) (Bin (Single u') Plus t').
Proof.
  intros H1 H2 wraps here names names' Hn v.
  change (andthen (term_value wraps here names t) (fun a => andthen (term_value wraps here names u) (fun b => compute wraps Plus a b)) = Val v ->
    andthen (term_value wraps here names' u') (fun a => andthen (term_value wraps here names' t') (fun b => compute wraps Plus a b)) = Val v).
  destruct (term_value wraps here names t) as [a| |] eqn:E1; try discriminate. destruct (term_value wraps here names u) as [b| |] eqn:E2; try discriminate.
  pose proof (H1 _ _ _ _ Hn a E1) as E3. pose proof (H2 _ _ _ _ Hn b E2) as E4. change (term_value wraps here names' t' = Val a) in E3. change (term_value wraps here names' u' = Val b) in E4. rewrite E3, E4.
  cbn [andthen compute]. now rewrite (Z.add_comm b a).
Qed.
End Expressions.

(** * C72 *)
(** Two programs that say the same, with a correspondence [R] of their names, are assembled to the
    same file, and corresponding labels have the same value. *)
Theorem c72_same_output : forall w ez80 case case' fuel input input' output x stem (R : text -> text -> Prop) p p' b,
  hd0 input <> 45 -> hd0 input' <> 45 -> hd0 output <> 45 -> plain_name output x stem ->
  w_files w input = Some (program_text p) -> w_files w input' = Some (program_text p') ->
  valid w ez80 case p -> valid w ez80 case' p' -> same_program R ez80 p p' ->
  (forall n n' m m', R n n' -> R m m' -> (fold_name case n = fold_name case m <-> fold_name case' n' = fold_name case' m')) ->
  (forall n n', R n n' -> reserved_name case n = false -> reserved_name case' n' = false) ->
  result w ez80 case p = Some b -> zlen b <= 8000000 ->
  (length (program_text p) + 22 <= fuel)%nat -> (length (program_text p') + 22 <= fuel)%nat ->
  exists s s', main fuel w (command ez80 case input output) = Done 0 [(output, exported_bytes x b)] (Some s) /\
    main fuel w (command ez80 case' input' output) = Done 0 [(output, exported_bytes x b)] (Some s') /\ s_printed s = [] /\ s_printed s' = [] /\
    forall n n', R n n' -> option_map l_value (tfind (fold_name case n) (s_labels s)) = option_map l_value (tfind (fold_name case' n') (s_labels s')).
Proof.
  intros w ez80 case case' fuel input input' output x stem R p p' b Hi Hi' Ho Hp F F' V V' Sp One Free Re Rm Fu Fu'.
  pose proof (assemble_alike R (w_wrap w) ez80 (fold_name case) (fold_name case') (reserved_name case) (reserved_name case') One Free p p' b Sp Re) as Re'.
  destruct (c48_whole_program w ez80 case fuel input output x stem p b Hi Ho F Hp V Re Rm Fu) as (t & s & P1 & P2 & Sy & L).
  destruct (c48_whole_program w ez80 case' fuel input' output x stem p' b Hi' Ho F' Hp V' Re' Rm Fu') as (t' & s' & P1' & P2' & Sy' & L').
  exists s, s'. split; [exact P1|]. split; [exact P1'|]. split; [exact P2|]. split; [exact P2'|]. intros n n' Rn. rewrite L, L'.
  assert (A0 : agree R (fold_name case) (fold_name case') [] []) by (intros m m' _; reflexivity).
  destruct (symbols_same R (w_wrap w) ez80 (fold_name case) (fold_name case') (reserved_name case) (reserved_name case') One Free _ _ Sp [] [] 0 t A0 eq_refl Sy) as (T' & Sy2 & A).
  unfold symbols_of in Sy'. rewrite Sy2 in Sy'. injection Sy' as ->. exact (A n n' Rn).
Qed.
(** Without -A the case of letters in names does not matter. *)
Theorem c72_letter_case : forall w ez80 fuel input input' output x stem p p' b,
  hd0 input <> 45 -> hd0 input' <> 45 -> hd0 output <> 45 -> plain_name output x stem ->
  w_files w input = Some (program_text p) -> w_files w input' = Some (program_text p') ->
  valid w ez80 false p -> valid w ez80 false p' -> same_program (fun n n' => map fold_case n = map fold_case n') ez80 p p' ->
  result w ez80 false p = Some b -> zlen b <= 8000000 ->
  (length (program_text p) + 22 <= fuel)%nat -> (length (program_text p') + 22 <= fuel)%nat ->
  exists s s', main fuel w (command ez80 false input output) = Done 0 [(output, exported_bytes x b)] (Some s) /\
    main fuel w (command ez80 false input' output) = Done 0 [(output, exported_bytes x b)] (Some s') /\ s_printed s = [] /\ s_printed s' = [].
Proof.
  intros w ez80 fuel input input' output x stem p p' b Hi Hi' Ho Hp F F' V V' Sp Re Rm Fu Fu'.
  destruct (c72_same_output w ez80 false false fuel input input' output x stem (fun n n' => map fold_case n = map fold_case n') p p' b) as (s & s' & P1 & P1' & P2 & P2' & _); auto.
  - intros n n' m m' E1 E2. unfold fold_name. rewrite E1, E2. reflexivity.
  - intros n n' E. unfold reserved_name, fold_name. now rewrite E.
  - exists s, s'. auto.
Qed.

(** ** The option -A *)
(** The names a program uses. *)
Definition datum_names (d : datum) : list text := match d with DNum w => names_of (w_expr w) | DStr _ _ _ => [] end.
Definition stmt_names (x : stmt) : list text :=
  match x with
  | SInstr _ _ _ _ _ _ _ es => flat_map names_of es
  | SData _ _ _ l => flat_map datum_names l
  | SFill _ _ n v => names_of (w_expr n) ++ match v with Some w => names_of (w_expr w) | None => [] end
  | SOrg _ _ e | SEqu _ _ e | SSet e => names_of (w_expr e)
  | _ => []
  end.
Definition section_names (x : section) : list text := match x_label x with Some n => [n] | None => [] end ++ stmt_names (x_stmt x).
Definition program_names (p : list line) : list text := flat_map section_names (sections p).
Definition no_calls_in (x : section) : Prop := match x_stmt x with SCall _ | SPaste _ => False | _ => True end.
Section Reflexive.
Variable U : text -> Prop.
Definition only (n n' : text) : Prop := n = n' /\ U n.
Lemma same_refl e : Forall U (names_of e) -> same_expr only e e.
Proof.
  intros H wraps here names names' Hn v E. rewrite <- E. symmetry. apply (proj2 (value_names wraps here names names')).
  eapply Forall_impl; [|exact H]. intros n Hu. apply Hn. now split.
Qed.
Lemma flat_Forall {A B} (f : A -> list B) (P : B -> Prop) l : Forall P (flat_map f l) -> Forall (fun x => Forall P (f x)) l.
Proof. induction l as [|x l IH]; cbn; [constructor|]. intros H. apply Forall_app in H as (H1 & H2). constructor; auto. Qed.
Lemma section_refl ez80 x : no_calls_in x -> Forall U (section_names x) -> same_section only ez80 x x.
Proof.
  unfold section_names, no_calls_in. intros Nc H. apply Forall_app in H as (H1 & H2). split.
  - destruct (x_label x); [|exact I]. inversion H1; subst. now split.
  - destruct (x_stmt x) as [|name sfx o i gap ws ops es|word width gap l|word gap n v|word gap e|word gap e|e|y|z]; cbn [stmt_names] in H2; try contradiction.
    + constructor.
    + constructor; [reflexivity|]. apply flat_Forall in H2. induction H2; constructor; auto. now apply same_refl.
    + constructor. apply flat_Forall in H2. induction H2 as [|d l Hd Hl IH]; constructor; auto. destruct d; constructor. now apply same_refl.
    + apply Forall_app in H2 as (H2 & H3). constructor; [now apply same_refl|]. destruct v; [now apply same_refl|exact I].
    + constructor. now apply same_refl.
    + eapply Same_assign; [reflexivity|reflexivity|]. now apply same_refl.
    + eapply Same_assign; [reflexivity|reflexivity|]. now apply same_refl.
Qed.
Lemma program_refl ez80 p : Forall no_calls_in (sections p) -> Forall U (program_names p) -> same_program only ez80 p p.
Proof.
  unfold same_program, program_names. intros Nc H. apply flat_Forall in H. induction (sections p) as [|x l IH]; [constructor|].
  inversion Nc; inversion H; subst. constructor; [now apply section_refl|now apply IH].
Qed.
End Reflexive.
Lemma valid_no_calls wraps ez80 fold taken ops : forall l now here, sections_ok wraps ez80 fold taken ops now here l -> Forall no_calls_in l.
Proof.
  induction l as [|x l IH]; intros now here H; [constructor|]. cbn [sections_ok] in H. destruct H as (H1 & H2). constructor.
  - destruct H1 as (_ & _ & H1). unfold no_calls_in. destruct (x_stmt x); try exact I; destruct (with_label fold taken now here x); exact H1.
  - destruct (after wraps ez80 fold taken now here x) as [(t, a)|]; [now apply (IH t a)|contradiction].
Qed.
(** If no two names of a program differ only in the case of letters, it is assembled alike with and without -A. *)
Theorem c72_case_option : forall w ez80 fuel input output x stem p b,
  hd0 input <> 45 -> hd0 output <> 45 -> plain_name output x stem -> w_files w input = Some (program_text p) ->
  valid w ez80 false p -> valid w ez80 true p -> 
  (forall n m, In n (program_names p) -> In m (program_names p) -> map fold_case n = map fold_case m -> n = m) ->
  result w ez80 false p = Some b -> zlen b <= 8000000 -> (length (program_text p) + 22 <= fuel)%nat ->
  exists s s', main fuel w (command ez80 false input output) = Done 0 [(output, exported_bytes x b)] (Some s) /\
    main fuel w (command ez80 true input output) = Done 0 [(output, exported_bytes x b)] (Some s') /\ s_printed s = [] /\ s_printed s' = [] /\
    forall n, In n (program_names p) -> option_map l_value (tfind (map fold_case n) (s_labels s)) = option_map l_value (tfind n (s_labels s')).
Proof.
  intros w ez80 fuel input output x stem p b Hi Ho Hp F V V' Un Re Rm Fu.
  assert (Sp : same_program (only (fun n => In n (program_names p))) ez80 p p).
  { apply program_refl; [|now apply Forall_forall]. unfold valid in V. destruct V as (_ & _ & _ & V). exact (valid_no_calls _ _ _ _ _ _ _ _ V). }
  destruct (c72_same_output w ez80 false true fuel input input output x stem (only (fun n => In n (program_names p))) p p b) as (s & s' & P1 & P1' & P2 & P2' & L); auto.
  - intros n n' m m' (<- & In1) (<- & In2). unfold fold_name. split; [now apply Un|]. now intros ->.
  - intros n n' (<- & _) E. destruct (reserved_name true n) eqn:E2; [|reflexivity]. unfold reserved_name, fold_name in *. apply existsb_exists in E2 as (m & Hm & Em). apply eqbl_eq in Em. subst m.
    rewrite <- E. symmetry. apply existsb_exists. exists n. split; [exact Hm|]. apply eqbl_eq.
    assert (K : forallb (fun m => eqbl (map fold_case m) m) predefined = true) by reflexivity. rewrite forallb_forall in K. now apply eqbl_eq, K.
  - exists s, s'. split; [exact P1|]. split; [exact P1'|]. split; [exact P2|]. split; [exact P2'|]. intros n Hn. apply (L n n). now split.
Qed.

(** ** Example *)
(** Two files that say the same: the first is the example of C48; the second has other names, in
    another case, and other blanks, comments, notations of numbers and line breaks. *)
Definition ex_five : expr := Single (Leaf NoSign (Num (BinSuffix (zs "101") 98))).
Definition ex_origin (t : text) : expr := Single (Leaf NoSign (Num (HexDollar t))).
Definition ex_diff2 : expr := Bin (ex_name (zs "END_2")) Minus (Leaf NoSign (Name (zs "BEGIN"))).
Definition ex_other : list line :=
  [ ex_line (mksection None false [] SNone) [] (Some (zs " The same again"));
    ex_line (mksection None false sp (SOrg (zs "ORG") sp (ex_at sp (ex_origin (zs "9d95")) (zs "$9d95") sp))) [] None;
    ex_line (mksection (Some (zs "Begin")) false [] SNone) [] None;
    ex_line (mksection None false sp (ex_ins (zs "LD") (zs "A,&") sp (chars (zs "A,") ++ plain (zs "size") sp) [zs "size "] [ex_name (zs "size")]))
      [mksection None false sp (ex_ins (zs "Jr") (zs "NZ,%") sp (chars (zs "NZ,") ++ plain (zs "End_2") []) [zs "End_2"] [ex_name (zs "End_2")])] None;
    ex_line (mksection None false sp (SData (zs "Byte") 1 sp [DNum (ex_at [] (ex_num (zs "01")) (zs "01") []); DStr sp (zs "hi") sp; DNum (ex_at [] ex_diff2 (zs "END_2-BEGIN") [])])) [] None;
    ex_line (mksection (Some (zs "size")) false sp (SSet (ex_at [] ex_five (zs "101b") []))) [] None;
    ex_line (mksection (Some (zs "End_2")) true [] SNone) [] None;
    ex_line (mksection None false sp (ex_ins (zs "RET") [] [] [] [] [])) [] None;
    ex_line (mksection None false [] (SFill (zs "FILL") sp (ex_at [] (ex_num (zs "2")) (zs "2") []) None)) [] None ].
Example ex_other_text : program_text ex_other =
  zs "; The same again" ++ [10] ++ zs " .ORG  $9d95 " ++ [10] ++ zs "Begin" ++ [10] ++ zs " LD A,size \ Jr NZ,End_2" ++ [10] ++
  zs " .Byte 01, " ++ [34] ++ zs "hi" ++ [34] ++ zs " ,END_2-BEGIN" ++ [10] ++ zs "size =101b" ++ [10] ++ zs "End_2:" ++ [10] ++ zs " RET" ++ [10] ++ zs ".FILL 2" ++ [10].
Proof. reflexivity. Qed.
Definition ex_names (n n' : text) : Prop :=
  In (map fold_case n, map fold_case n') [(zs "START", zs "BEGIN"); (zs "COUNT", zs "SIZE"); (zs "DONE", zs "END_2")].
Ltac ex_in := unfold ex_names; vm_compute; tauto.
Lemma ex_same : same_program ex_names false ex_program ex_other.
Proof.
  unfold same_program, sections, ex_program, ex_other, ex_line. cbn [flat_map l_first l_more app].
  apply Same_right; [split; reflexivity|].
  apply Same_cons. { split; [exact I|]. constructor. apply same_number; try discriminate. reflexivity. }
  apply Same_own_left; [reflexivity|]. apply Same_cons. { split; [ex_in|constructor]. }
  apply Same_cons. { split; [exact I|]. apply (Same_instr ex_names false); [reflexivity|]. constructor; [|constructor]. apply same_name. ex_in. }
  apply Same_cons. { split; [exact I|]. apply (Same_instr ex_names false); [reflexivity|]. constructor; [|constructor]. apply same_name. ex_in. }
  apply Same_cons.
  { split; [exact I|]. constructor. constructor; [constructor; apply same_number; try discriminate; reflexivity|]. constructor; [constructor|]. constructor; [|constructor]. constructor.
    apply same_bin; apply same_name; ex_in. }
  apply Same_cons. { split; [ex_in|]. eapply Same_assign; [reflexivity|reflexivity|]. apply same_number; try discriminate. reflexivity. }
  apply Same_own_left; [reflexivity|]. apply Same_cons. { split; [ex_in|constructor]. }
  apply Same_cons. { split; [exact I|]. apply (Same_instr ex_names false); [reflexivity|constructor]. }
  apply Same_cons. { split; [exact I|]. constructor; [|exact I]. apply same_number; try discriminate. reflexivity. }
  constructor.
Qed.
Section Example.
Variable w : world.
Notation ok := (stmt_ok (w_wrap w) false (fold_name false) (reserved_name false) opcode_list).
Lemma ok2_org here now : ok here now (SOrg (zs "ORG") sp (ex_at sp (ex_origin (zs "9d95")) (zs "$9d95") sp)).
Proof.
  split; [exact ex_gap|]. split; [reflexivity|]. split; [|reflexivity].
  split; [exact ex_sp|]. split; [|split; [exact ex_sp|split; [cbn; lia|vm_compute; discriminate]]]. constructor. apply (W_leaf NoSign [] (Num (HexDollar (zs "9d95")))); [|constructor|reflexivity].
  split; [discriminate|]. split; [|exact I]. repeat (apply Forall_cons; [eexists; split; [reflexivity|vm_compute; reflexivity]|]). constructor.
Qed.
Lemma ok2_ld here now : ok here now (ex_ins (zs "LD") (zs "A,&") sp (chars (zs "A,") ++ plain (zs "size") sp) [zs "size "] [ex_name (zs "size")]).
Proof. apply (ex_instr (w_wrap w) (zs "LD") (zs "A,&") sp (zs "A,") (zs "size") sp (ch "&")); try reflexivity; try discriminate; try (vm_compute; discriminate); [vm_compute; tauto|exact ex_sp]. Qed.
Lemma ok2_jr here now : ok here now (ex_ins (zs "Jr") (zs "NZ,%") sp (chars (zs "NZ,") ++ plain (zs "End_2") []) [zs "End_2"] [ex_name (zs "End_2")]).
Proof. apply (ex_instr (w_wrap w) (zs "Jr") (zs "NZ,%") sp (zs "NZ,") (zs "End_2") [] (ch "%")); try reflexivity; try discriminate; try (vm_compute; discriminate); [vm_compute; tauto|blanks]. Qed.
Lemma ok2_db here now : ok here now (SData (zs "Byte") 1 sp [DNum (ex_at [] (ex_num (zs "01")) (zs "01") []); DStr sp (zs "hi") sp; DNum (ex_at [] ex_diff2 (zs "END_2-BEGIN") [])]).
Proof.
  split; [exact ex_gap|]. split; [discriminate|]. split; [|reflexivity].
  split; [apply ex_written; try discriminate; try reflexivity; constructor|]. split; [split; [reflexivity|apply orb_true_iff; left; destruct (w_wrap w); reflexivity]|].
  split. { split; [exact ex_sp|]. split; [exact ex_sp|]. split; [repeat (apply Forall_cons; [vm_compute; intuition discriminate|]); constructor|vm_compute; discriminate]. }
  split. { split; [constructor|]. split; [|split; [constructor|split; [cbn; lia|vm_compute; discriminate]]].
    change (w_text (ex_at [] ex_diff2 (zs "END_2-BEGIN") [])) with (zs "END_2" ++ [] ++ spelling Minus ++ [] ++ zs "BEGIN"). constructor; [|constructor|constructor| |discriminate].
    - apply w_name. now apply name_okb_ok.
    - apply (W_leaf NoSign [] (Name (zs "BEGIN"))); [now apply name_okb_ok|constructor|reflexivity]. }
  split; [split; [reflexivity|apply orb_true_iff; right; reflexivity]|exact I].
Qed.
Lemma ok2_set here now : ok here now (SSet (ex_at [] ex_five (zs "101b") [])).
Proof.
  split; [|reflexivity]. split; [constructor|]. split; [|split; [constructor|split; [cbn; lia|vm_compute; discriminate]]]. constructor.
  apply (W_leaf NoSign [] (Num (BinSuffix (zs "101") 98))); [|constructor|reflexivity].
  split; [discriminate|]. split; [|now right]. repeat (apply Forall_cons; [eexists; split; [reflexivity|vm_compute; reflexivity]|]). constructor.
Qed.
Lemma ok2_ret here now : ok here now (ex_ins (zs "RET") [] [] [] [] []).
Proof.
  unfold ex_ins. cbn [stmt_ok]. destruct (row_first (op_of (map toupper (zs "RET"))) []) as (R1 & R2); [reflexivity|].
  split; [apply op_in; reflexivity|]. split; [exact R1|]. split; [reflexivity|]. split; [now left|]. split; [constructor|]. split; [reflexivity|]. rewrite R2. split; [constructor|]. split; [constructor|]. split; [vm_compute; discriminate|].
  split; [split; reflexivity|]. split; [constructor|]. intros [].
Qed.
Lemma ok2_fill here now : ok here now (SFill (zs "FILL") sp (ex_at [] (ex_num (zs "2")) (zs "2") []) None).
Proof. split; [exact ex_gap|]. split; [reflexivity|]. split; [|exact I]. apply ex_known; try discriminate; reflexivity. Qed.
Lemma ok2_none here now : ok here now SNone.
Proof. exact I. Qed.
Ltac step lemma := eapply ex_next; [|destruct (w_wrap w); vm_compute; reflexivity|];
  [split; [split; [first [exact ex_sp|constructor]|first [discriminate|intros _; now left|intros _; now right|vm_compute; tauto]]|split; [first [exact I|now apply name_okb_ok]|apply lemma]]|].
Lemma ex_other_valid : valid w false false ex_other.
Proof.
  split; [discriminate|]. split; [vm_compute; repeat (apply Forall_cons; [discriminate|]); constructor|]. split.
  { repeat (apply Forall_cons; [first [exact I|cbn [line_ok l_comment ex_line]; vm_compute; repeat (apply Forall_cons; [split; discriminate|]); constructor]|]). constructor. }
  unfold ex_other, sections. cbn [flat_map ex_line l_first l_more app].
  step ok2_none. step ok2_org. step ok2_none. step ok2_ld. step ok2_jr. step ok2_db. step ok2_set. step ok2_none. step ok2_ret. step ok2_fill. exact I.
Qed.
End Example.
Definition ex2_world : world := mkworld (fun n => if eqbl n (zs "prog.asm") then Some (program_text ex_program) else if eqbl n (zs "other.asm") then Some (program_text ex_other) else None)
  (fun _ => 0) (zs "/src") (fun _ => []) false.
Example c72_case : exists s s', main 400 ex2_world [zs "prog.asm"; zs "prog.bin"] = Done 0 [(zs "prog.bin", ex_bytes)] (Some s) /\
  main 400 ex2_world [zs "other.asm"; zs "prog.bin"] = Done 0 [(zs "prog.bin", ex_bytes)] (Some s') /\
  option_map l_value (tfind (zs "DONE") (s_labels s)) = option_map l_value (tfind (zs "END_2") (s_labels s')).
Proof.
  assert (P : plain_name (zs "prog.bin") ExBinary (zs "prog")).
  { right. exists (zs "bin"). split; [reflexivity|]. split; [discriminate|]. split; [vm_compute; intuition discriminate|]. split; [reflexivity|now left]. }
  assert (H1 : hd0 (zs "prog.asm") <> 45) by discriminate. assert (H2 : hd0 (zs "prog.bin") <> 45) by discriminate. assert (H3 : hd0 (zs "other.asm") <> 45) by discriminate.
  assert (F1 : w_files ex2_world (zs "prog.asm") = Some (program_text ex_program)) by (vm_compute; reflexivity).
  assert (F2 : w_files ex2_world (zs "other.asm") = Some (program_text ex_other)) by (vm_compute; reflexivity).
  assert (H4 : zlen ex_bytes <= 8000000) by (vm_compute; discriminate). assert (H5 : (length (program_text ex_program) + 22 <= 400)%nat) by (vm_compute; lia).
  assert (H6 : (length (program_text ex_other) + 22 <= 400)%nat) by (vm_compute; lia).
  destruct (c72_same_output ex2_world false false false 400 _ _ _ _ _ ex_names ex_program ex_other ex_bytes H1 H3 H2 P F1 F2 (ex_valid _) (ex_other_valid _) ex_same) as (s & s' & P1 & P2 & _ & _ & L).
  - intros n n' m m'. unfold ex_names, fold_name. cbn [In]. intros Hn Hm.
    destruct Hn as [Hn|[Hn|[Hn|[]]]], Hm as [Hm|[Hm|[Hm|[]]]]; injection Hn as <- <-; injection Hm as <- <-; split; intros K; try reflexivity; discriminate K.
  - intros n n'. unfold ex_names, reserved_name, fold_name. cbn [In]. intros [H|[H|[H|[]]]] _; injection H as _ <-; reflexivity.
  - exact (ex_result ex2_world).
  - exact H4.
  - exact H5.
  - exact H6.
  - exists s, s'. split; [exact P1|]. split; [exact P2|]. apply (L (zs "DONE") (zs "END_2")). ex_in.
Qed.
(** The hypotheses of the two corollaries are met as well. *)
Definition ex_low : list line := [ex_line (mksection (Some (zs "Start")) true sp (ex_ins (zs "ret") [] [] [] [] [])) [] None].
Definition ex_high : list line := [ex_line (mksection (Some (zs "sTART")) false [] SNone) [] None; ex_line (mksection None false sp (ex_ins (zs "RET") [] [] [] [] [])) [] (Some (zs "back"))].
Lemma ok3_ret wraps case here now : stmt_ok wraps false (fold_name case) (reserved_name case) opcode_list here now (ex_ins (zs "ret") [] [] [] [] []).
Proof.
  unfold ex_ins. cbn [stmt_ok]. destruct (row_first (op_of (map toupper (zs "ret"))) []) as (R1 & R2); [reflexivity|].
  split; [apply op_in; reflexivity|]. split; [exact R1|]. split; [reflexivity|]. split; [now left|]. split; [constructor|]. split; [reflexivity|]. rewrite R2. split; [constructor|]. split; [constructor|]. split; [vm_compute; discriminate|].
  split; [split; reflexivity|]. split; [constructor|]. intros [].
Qed.
Lemma ex_low_valid w case : valid w false case ex_low.
Proof.
  split; [discriminate|]. split; [vm_compute; repeat (apply Forall_cons; [discriminate|]); constructor|]. split; [constructor; [exact I|constructor]|].
  unfold ex_low, sections. cbn [flat_map ex_line l_first l_more app sections_ok]. split.
  - split; [split; [exact ex_sp|discriminate]|]. split; [now apply name_okb_ok|]. 
    assert (E : with_label (fold_name case) (reserved_name case) [] 0 (mksection (Some (zs "Start")) true sp (ex_ins (zs "ret") [] [] [] [] [])) = Some [(zs "Start", 0)]) by (destruct case; vm_compute; reflexivity).
    rewrite E. cbn [x_stmt]. exact (ok3_ret _ _ _ _).
  - destruct (w_wrap w), case; vm_compute; exact I.
Qed.
Lemma ex_high_valid w : valid w false false ex_high.
Proof.
  split; [discriminate|]. split; [vm_compute; repeat (apply Forall_cons; [discriminate|]); constructor|]. split.
  { constructor; [exact I|]. constructor; [|constructor]. cbn [line_ok l_comment ex_line]; vm_compute; repeat (apply Forall_cons; [split; discriminate|]); constructor. }
  unfold ex_high, sections. cbn [flat_map ex_line l_first l_more app].
  apply ex_next with (now' := [(zs "sTART", 0)]) (here' := 0); [|destruct (w_wrap w); vm_compute; reflexivity|].
  { split; [split; [apply Forall_nil|vm_compute; tauto]|]. split; [now apply name_okb_ok|exact I]. }
  apply ex_next with (now' := [(zs "sTART", 0)]) (here' := 1); [|destruct (w_wrap w); vm_compute; reflexivity|exact I].
  split; [split; [exact ex_sp|discriminate]|]. split; [exact I|apply ok2_ret].
Qed.
Example c72_letter_case_met w : valid w false false ex_low /\ valid w false false ex_high /\
  same_program (fun n n' => map fold_case n = map fold_case n') false ex_low ex_high /\ result w false false ex_low = Some [201].
Proof.
  split; [apply ex_low_valid|]. split; [apply ex_high_valid|]. split; [|unfold result; destruct (w_wrap w); vm_compute; reflexivity].
  unfold same_program, sections, ex_low, ex_high, ex_line. cbn [flat_map l_first l_more app].
  apply Same_own_left; [reflexivity|]. apply Same_cons; [split; [reflexivity|constructor]|]. apply Same_cons; [|constructor]. split; [exact I|]. apply (Same_instr _ false); [reflexivity|constructor].
Qed.
Example c72_case_option_met w : valid w false false ex_low /\ valid w false true ex_low /\ program_names ex_low = [zs "Start"] /\ result w false false ex_low = Some [201].
Proof. split; [apply ex_low_valid|]. split; [apply ex_low_valid|]. split; [reflexivity|]. unfold result; destruct (w_wrap w); vm_compute; reflexivity. Qed.
Print Assumptions c72_same_output.
Print Assumptions c72_letter_case.
Print Assumptions c72_case_option.
