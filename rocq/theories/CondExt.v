(** The reference assembler sees the table of defined names only through its answers. *)
From Verif Require Import Base BaseProofs State UtilsSpec StorageSpec ParserSpec InstrSpec MatchSpec AsmSpec CondSpec CondSkip.

Lemma forallb_same {A} (f g : A -> bool) l : (forall x, f x = g x) -> forallb f l = forallb g l.
Proof. intros E. induction l as [|x l IH]; [reflexivity|]. cbn. now rewrite E, IH. Qed.
Lemma and_iff A B C D : (A <-> C) -> (B <-> D) -> (A /\ B <-> C /\ D).
Proof. tauto. Qed.

(** Calls and inclusions that do the same. *)
Record alike_at {P : Params} (a b : Calls) : Prop := mkalike {
  like_after : forall now here y, call_after (Calls := a) params now here y = call_after (Calls := b) params now here y;
  like_bytes : forall t now here y, call_bytes (Calls := a) params t now here y = call_bytes (Calls := b) params t now here y;
  like_ok : forall now here y, call_ok (Calls := a) params now here y <-> call_ok (Calls := b) params now here y;
  like_pafter : forall now here z, paste_after (Calls := a) params now here z = paste_after (Calls := b) params now here z;
  like_pbytes : forall t now here z, paste_bytes (Calls := a) params t now here z = paste_bytes (Calls := b) params t now here z;
  like_pok : forall now here z, paste_ok (Calls := a) params now here z <-> paste_ok (Calls := b) params now here z }.
Definition alike (a b : Calls) : Prop := forall P, @alike_at P a b.
Lemma alike_refl {P : Params} a : alike_at a a.
Proof. now constructor. Qed.

Section Same.
Context {Pm : Params} {Ca : Calls}.
Variable Ca' : Calls.
Variable wraps ez80 : bool.
Variable fold : text -> text.
Variable ops : list opcode.
Variable tk tk' : text -> bool.
Hypothesis same : forall n, tk n = tk' n.
Hypothesis like : alike_at Ca Ca'.

Lemma with_label_same now here x : with_label fold tk now here x = with_label fold tk' now here x.
Proof. unfold with_label. destruct (x_label x); [|reflexivity]. now rewrite same. Qed.
Lemma after_same now here x : after (Ca := Ca) wraps ez80 fold tk now here x = after (Ca := Ca') wraps ez80 fold tk' now here x.
Proof. unfold after. rewrite with_label_same. destruct (with_label fold tk' now here x); [|reflexivity]. destruct (x_stmt x); try reflexivity; [now rewrite (like_after _ _ like)|now rewrite (like_pafter _ _ like)]. Qed.
Lemma emits_same t now here x : emits (Ca := Ca) wraps ez80 fold tk t now here x = emits (Ca := Ca') wraps ez80 fold tk' t now here x.
Proof. unfold emits. rewrite with_label_same. destruct (x_stmt x); try reflexivity; (destruct (with_label fold tk' now here x); [|reflexivity]); [apply (like_bytes _ _ like)|apply (like_pbytes _ _ like)]. Qed.
Lemma symbols_same l : forall now here, symbols (Ca := Ca) wraps ez80 fold tk now here l = symbols (Ca := Ca') wraps ez80 fold tk' now here l.
Proof. induction l as [|x l IH]; intros now here; [reflexivity|]. cbn [symbols]. rewrite after_same. destruct (after (Ca := Ca') _ _ _ tk' now here x) as [(a, b)|]; auto. Qed.
Lemma reached_same l : forall now here, reached (Ca := Ca) wraps ez80 fold tk now here l = reached (Ca := Ca') wraps ez80 fold tk' now here l.
Proof. induction l as [|x l IH]; intros now here; [reflexivity|]. cbn [reached]. rewrite after_same. destruct (after (Ca := Ca') _ _ _ tk' now here x) as [(a, b)|]; auto. Qed.
Lemma output_same t l : forall now here, output (Ca := Ca) wraps ez80 fold tk t now here l = output (Ca := Ca') wraps ez80 fold tk' t now here l.
Proof. induction l as [|x l IH]; intros now here; [reflexivity|]. cbn [output]. rewrite after_same, emits_same. destruct (emits (Ca := Ca') _ _ _ tk' t now here x); [|reflexivity]. destruct (after (Ca := Ca') _ _ _ tk' now here x) as [(a, b)|]; [|reflexivity]. now rewrite IH. Qed.
Lemma assemble_same p : assemble (Ca := Ca) wraps ez80 fold tk p = assemble (Ca := Ca') wraps ez80 fold tk' p.
Proof. unfold assemble. rewrite symbols_same. destruct (symbols (Ca := Ca') _ _ _ tk' [] 0 (sections p)); [apply output_same|reflexivity]. Qed.
Lemma names_same l : forallb (usable fold tk) l = forallb (usable fold tk') l.
Proof. apply forallb_same. intros n. unfold usable. now rewrite same. Qed.
Lemma expr_ok_same here now e : expr_ok wraps fold tk here now e <-> expr_ok wraps fold tk' here now e.
Proof.
  unfold expr_ok, may_wait. rewrite names_same.
  replace (forallb _ (hidden e)) with (forallb (fun w => negb (tk' w || tk' (w ++ [33]) || isSome (lookup fold now w) || isSome (lookup fold now (w ++ [33])) || memb 34 w)) (hidden e)) by (apply forallb_same; intros n; now rewrite !same).
  reflexivity.
Qed.
Lemma known_ok_same w : known_ok fold tk w <-> known_ok fold tk' w.
Proof. unfold known_ok. rewrite names_same. reflexivity. Qed.
Lemma data_ok_same width l : forall here now, data_ok wraps fold tk here now width l <-> data_ok wraps fold tk' here now width l.
Proof.
  induction l as [|d l IH]; intros here now; [reflexivity|]. destruct d as [w|b u a]; cbn [data_ok].
  - apply and_iff; [reflexivity|]. apply and_iff; [apply expr_ok_same|apply IH].
  - apply and_iff; [reflexivity|apply IH].
Qed.
Lemma stmt_ok_same here now x : stmt_ok (Ca := Ca) wraps ez80 fold tk ops here now x <-> stmt_ok (Ca := Ca') wraps ez80 fold tk' ops here now x.
Proof.
  destruct x as [|name sfx o i gap ws texts es|word width gap l|word gap n v|word gap e|word gap e|e|y|z]; cbn [stmt_ok].
  - reflexivity.
  - repeat (apply and_iff; [reflexivity|]). apply and_iff; [|reflexivity]. rewrite !Forall_forall. split; intros H y Hy; apply expr_ok_same; auto.
  - repeat (apply and_iff; [reflexivity|]). apply and_iff; [apply data_ok_same|reflexivity].
  - do 2 (apply and_iff; [reflexivity|]). apply and_iff; [apply known_ok_same|]. destruct v; [apply known_ok_same|reflexivity].
  - do 2 (apply and_iff; [reflexivity|]). apply known_ok_same.
  - do 2 (apply and_iff; [reflexivity|]). apply known_ok_same.
  - apply known_ok_same.
  - apply (like_ok _ _ like).
  - apply (like_pok _ _ like).
Qed.
Lemma sections_ok_same l : forall now here, sections_ok (Ca := Ca) wraps ez80 fold tk ops now here l <-> sections_ok (Ca := Ca') wraps ez80 fold tk' ops now here l.
Proof.
  induction l as [|x l IH]; intros now here; [reflexivity|]. cbn [sections_ok]. apply and_iff.
  - unfold section_ok. rewrite with_label_same. repeat (apply and_iff; [reflexivity|]). destruct (with_label fold tk' now here x); [apply stmt_ok_same|reflexivity].
  - rewrite after_same. destruct (after (Ca := Ca') _ _ _ tk' now here x) as [(a, b)|]; [apply IH|reflexivity].
Qed.
Lemma holds_same now here x : holds wraps fold tk now here x = holds wraps fold tk' now here x.
Proof. unfold holds, known_name. destruct x; [reflexivity|now rewrite same|now rewrite same]. Qed.
Lemma and_then_same x f g : (forall a b, f a b = g a b) -> and_then x f = and_then x g.
Proof. intros E. destruct x as [(p, (a, b))|]; [|reflexivity]. cbn. now rewrite E. Qed.
Lemma chosen_same : (forall b now here, chosen (Ca := Ca) wraps ez80 fold tk now here b = chosen (Ca := Ca') wraps ez80 fold tk' now here b) /\
  (forall a now here, chosen_alt (Ca := Ca) wraps ez80 fold tk now here a = chosen_alt (Ca := Ca') wraps ez80 fold tk' now here a).
Proof.
  apply blocks_alt_ind.
  - reflexivity.
  - intros l b IH now here. cbn [chosen]. rewrite reached_same. destruct (reached (Ca := Ca') _ _ _ tk' now here (sections [l])); [|reflexivity]. now apply and_then_same.
  - reflexivity.
  - intros h yes IHy no IHn b IH now here. cbn [chosen]. rewrite holds_same. destruct (holds _ _ tk' now here (h_test h)) as [[|]|]; [| |reflexivity].
    + rewrite IHy. now apply and_then_same.
    + rewrite IHn. now apply and_then_same.
  - reflexivity.
  - intros m no IH e now here. apply IH.
  - intros h yes IHy no IHn now here. cbn [chosen_alt]. rewrite holds_same. destruct (holds _ _ tk' now here (h_test h)) as [[|]|]; auto.
Qed.
Lemma head_ok_same first h : head_ok fold tk first h <-> head_ok fold tk' first h.
Proof.
  unfold head_ok. repeat (apply and_iff; [reflexivity|]). apply and_iff; [|reflexivity]. destruct (h_test h); cbn [test_ok]; [apply known_ok_same|reflexivity|reflexivity].
Qed.
Lemma blocks_ok_same : (forall b i, blocks_ok fold tk i b <-> blocks_ok fold tk' i b) /\ (forall a, alt_ok fold tk a <-> alt_ok fold tk' a).
Proof.
  apply blocks_alt_ind; cbn [blocks_ok alt_ok].
  - reflexivity.
  - intros l b IH i. repeat (apply and_iff; [reflexivity|]). apply IH.
  - intros t cr b IH i. repeat (apply and_iff; [reflexivity|]). apply IH.
  - intros h yes IHy no IHn b IH i. apply and_iff; [apply head_ok_same|]. apply and_iff; [apply IHy|]. apply and_iff; [apply IHn|apply IH].
  - reflexivity.
  - intros m no IH e. apply and_iff; [reflexivity|]. apply and_iff; [apply IH|reflexivity].
  - intros h yes IHy no IHn. apply and_iff; [apply head_ok_same|]. apply and_iff; [apply IHy|apply IHn].
Qed.
End Same.
