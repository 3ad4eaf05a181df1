(** A written instruction form selects its own row (C12). *)
From Verif Require Import Base BaseProofs State UtilsModel ErrorsModel StorageModel ParserModel PassTwoModel PreopModel PassOneModel OpcodeTables
  MonadProofs UtilsSpec UtilsProofs ParserSpec ParserProofs InstrSpec InstrProofs InstrProps MatchSpec MatchProofs.

(** * The finite check of the tables *)
Fixpoint toks_all (pat : text) : list (list stok) :=
  match pat with
  | [] => [[]]
  | c :: p =>
    let r := toks_all p in
    if c =? 64 then map (cons SI) r ++ r else if is_arg c then map (cons SP) r else map (cons (SL c)) r
  end.
Fixpoint earlier_no (o : opcode) (pat : text) (l : list instr) (t : list stok) : bool :=
  match l with
  | [] => false
  | j :: l' => if eqbl (i_args j) pat then true else sym_no o false (i_args j) t 0 && earlier_no o pat l' t
  end.
Definition wilds (pat : text) : nat := length (filter is_arg pat).
Definition row_fine (o : opcode) (i : instr) : bool :=
  pat_ok 0 (i_args i) && Nat.leb (wilds (i_args i)) 3 &&
  forallb (earlier_no o (i_args i) (op_instrs o)) (toks_all (i_args i)).
Definition table_fine (l : list opcode) : bool := forallb (fun o => forallb (row_fine o) (op_instrs o)) l.
Lemma tables_fine : table_fine (opcode_list ++ opcode_list_ez80) = true.
Proof. vm_compute. reflexivity. Qed.

Lemma spells_toks o pat ws ops : spells pat ws ops -> Forall (fun w => item_ok o (fst w)) ws -> forall prev, pat_ok prev pat = true ->
  (exists t, In t (toks_all pat) /\ abs ws t) /\ field_ok o ws /\ length ops = wilds pat.
Proof.
  unfold wilds. induction 1 as [|c c' b pat ws ops Nw N64 Hc Hb Hs IH|c l b pat ws ops Hw Hb Hs IH|l b pat ws ops Hb Hs IH|pat ws ops Hs IH]; intros Hi prev Hp.
  - split; [exists []; split; [now left|constructor]|]. split; [constructor|reflexivity].
  - inversion Hi as [|? ? Hi1 Hi2]; subst. cbn [pat_ok] in Hp. apply andb_true_iff in Hp as (P1 & P2). destruct (IH Hi2 c P2) as ((t & T1 & T2) & F & L).
    assert (A : is_arg c = false).
    { destruct (is_arg c) eqn:E; [|reflexivity]. apply wild_iff in E. destruct E; [contradiction|]. change (ch "@") with 64 in N64. lia. }
    rewrite A in P1. cbn [toks_all filter]. rewrite A. replace (c =? 64) with false by (change (ch "@") with 64 in N64; lia).
    split; [|split; [|exact L]].
    + exists (SL c :: t). split; [now apply in_map|]. constructor; [exact Hc|exact T2].
    + constructor; [|exact F]. split; [exact Hb|]. cbn [fst]. unfold char_ok. apply orb_true_iff in P1. destruct P1 as [P1|P1].
      * left. apply lod_iff. apply lod_iff in P1. unfold same_char, MatchSpec.letter_or_digit in *. lia.
      * right. unfold punct in *. apply memb_In in P1. simpl in P1. unfold same_char in Hc. assert (c' = c) by lia. subst. now apply memb_In.
  - inversion Hi as [|? ? Hi1 Hi2]; subst. cbn [pat_ok] in Hp. apply andb_true_iff in Hp as (P1 & P2). destruct (IH Hi2 c P2) as ((t & T1 & T2) & F & L).
    assert (A : is_arg c = true) by (apply wild_iff; now left).
    assert (C64 : c <> 64) by (unfold wild in Hw; simpl in Hw; lia).
    cbn [toks_all filter]. rewrite A. replace (c =? 64) with false by lia. split; [|split; [|cbn [length]; lia]].
    + exists (SP :: t). split; [now apply in_map|]. constructor; [exact I|exact T2].
    + constructor; [|exact F]. split; assumption.
  - inversion Hi as [|? ? Hi1 Hi2]; subst. cbn [pat_ok] in Hp. apply andb_true_iff in Hp as (P1 & P2). destruct (IH Hi2 _ P2) as ((t & T1 & T2) & F & L).
    cbn [toks_all filter]. change (is_arg (ch "@")) with true. change (ch "@" =? 64) with true. cbv iota. split; [|split; [|cbn [length]; lia]].
    + exists (SI :: t). split; [apply in_or_app; left; now apply in_map|]. constructor; [exact I|exact T2].
    + constructor; [|exact F]. split; assumption.
  - cbn [pat_ok] in Hp. apply andb_true_iff in Hp as (P1 & P2). destruct (IH Hi _ P2) as ((t & T1 & T2) & F & L).
    cbn [toks_all filter]. change (is_arg (ch "@")) with true. change (ch "@" =? 64) with true. cbv iota. split; [|split; [exact F|cbn [length]; lia]].
    exists t. split; [apply in_or_app; now right|exact T2].
Qed.

Definition first_like (pat : text) (l : list instr) : option instr := find (fun j => eqbl (i_args j) pat) l.
Lemma select o pat ws ops rest s before : line_over rest -> spells pat ws ops -> pat_ok 0 pat = true -> field_ok o ws ->
  zlen (wtext ws) <= 254 -> (length ops <= 3)%nat -> forall t, abs ws t -> forall l last, earlier_no o pat l t = true ->
  exists j args, first_like pat l = Some j /\ i_args j = pat /\
    match_instrs (before ++ wtext ws ++ rest) (wtext ws ++ rest) last l s = Ok (rest, Some (j, args)) s /\
    map (fun a => seg (fst a) (snd a)) args = ops.
Proof.
  intros Hr Hs Hp Hf Hlen Hn t Ht. induction l as [|j l IH]; intros last H; [discriminate|]. cbn [earlier_no] in H. unfold first_like. cbn [find match_instrs].
  destruct (eqbl (i_args j) pat) eqn:E.
  - apply eqbl_eq in E. destruct (own o rest s Hr pat ws ops Hs 0 Hp Hf (before ++ wtext ws ++ rest) before [] eq_refl) as (args & G & M); auto; [discriminate|].
    exists j, args. split; [reflexivity|]. split; [exact E|]. split; [|exact M]. rewrite <- E in G. unfold gives in G. rewrite <- match_instr_is in G.
    rewrite (bind_ok _ _ _ _ _ G). reflexivity.
  - apply andb_true_iff in H as (H1 & H2). destruct (no_match o rest s Hr _ _ _ _ H1 ws (before ++ wtext ws ++ rest) before [] Ht Hf eq_refl eq_refl) as (q & G); auto; [discriminate|].
    unfold gives in G. rewrite <- match_instr_is in G. destruct (IH q H2) as (j' & args & A1 & A2 & A3 & A4).
    exists j', args. split; [exact A1|]. split; [exact A2|]. split; [|exact A4]. rewrite (bind_ok _ _ _ _ _ G). exact A3.
Qed.

(** The operand field [ws] writes row [i] of instruction [o], with registers and punctuation in
    any case, blanks anywhere between them, and expressions that do not begin with a register
    name.  Then the matcher selects a row of [o] with the same form, the first such row, with the
    texts written in the operand slots; it goes on after the statement and changes nothing. *)
Theorem c12_row o i ws ops before rest later s :
  In o (opcode_list ++ opcode_list_ez80) -> In i (op_instrs o) -> spells (i_args i) ws ops ->
  Forall (fun w => item_ok o (fst w)) ws -> zlen (wtext ws) <= 254 -> line_over rest ->
  exists j args, In j (op_instrs o) /\ first_like (i_args i) (op_instrs o) = Some j /\ i_args j = i_args i /\
    match_opcode_args (before ++ wtext ws ++ rest) (wtext ws ++ rest) (o :: later) s = Ok (rest, Some (j, args)) s /\
    map (fun a => seg (fst a) (snd a)) args = ops.
Proof.
  intros Ho Hi Hs Hok Hlen Hr. pose proof tables_fine as T. unfold table_fine in T. rewrite forallb_forall in T. specialize (T o Ho).
  rewrite forallb_forall in T. specialize (T i Hi). unfold row_fine in T. apply andb_true_iff in T as (T & T3). apply andb_true_iff in T as (T1 & T2).
  apply Nat.leb_le in T2. destruct (spells_toks o _ _ _ Hs Hok 0 T1) as ((t & I & A) & F & L).
  rewrite forallb_forall in T3. specialize (T3 t I).
  destruct (select o _ ws ops rest s before Hr Hs T1 F Hlen ltac:(lia) t A (op_instrs o) (wtext ws ++ rest) T3) as (j & args & A1 & A2 & A3 & A4).
  exists j, args. split; [unfold first_like in A1; now apply find_some in A1 as (? & _)|]. split; [exact A1|]. split; [exact A2|]. split; [|exact A4].
  cbn [match_opcode_args]. rewrite (bind_ok _ _ _ _ _ A3). reflexivity.
Qed.
Print Assumptions c12_row.

(** * Expressions as operands *)
Lemma pchars t : Forall (fun c => ~ bracket c /\ c <> 44 /\ ~ line_ender c) t -> Forall (piece_ok [44] true) (map PChar t).
Proof. intros H. apply Forall_map. eapply Forall_impl; [|exact H]. intros c (H1 & H2 & H3). constructor; [exact H1|]. intros _. simpl. split; [lia|exact H3]. Qed.
Definition made (te : text) : Prop := exists l, pieces_text l = te /\ Forall (piece_ok [44] true) l.
Lemma made_app a b : made a -> made b -> made (a ++ b).
Proof. intros (l & <- & Hl) (m & <- & Hm). exists (l ++ m). split; [apply pieces_app|now apply Forall_app]. Qed.
Lemma made_chars t : Forall (fun c => ~ bracket c /\ c <> 44 /\ ~ line_ender c) t -> made t.
Proof. intros H. exists (map PChar t). split; [apply map_pchar|now apply pchars]. Qed.
Lemma made_blanks b : Forall blank b -> made b.
Proof. intros H. apply made_chars. eapply Forall_impl; [|exact H]. intros c Hc. unfold blank, bracket, line_ender in *. lia. Qed.
Lemma made_check t : forallb (fun c => negb (memb c [34; 39; 40; 41; 44; 10; 13; 59; 92])) t = true -> made t.
Proof.
  intros H. apply made_chars. rewrite forallb_forall in H. apply Forall_forall. intros c Hc. specialize (H c Hc). unfold memb in H. simpl in H.
  unfold bracket, line_ender. lia.
Qed.
Lemma made_sign g : made (sign_text g).
Proof. apply made_check. now destruct g. Qed.
Lemma made_op o : made (spelling o).
Proof. apply made_check. now destruct o. Qed.
Lemma made_names n : Forall ParserSpec.name_char n -> made n.
Proof. intros H. apply made_chars. eapply Forall_impl; [|exact H]. intros c Hc. unfold ParserSpec.name_char, bracket, line_ender in *. simpl in Hc. lia. Qed.
Lemma digit_name base c : digit_of base c -> ParserSpec.name_char c.
Proof. intros (d & H & _). unfold digit_value in H. unfold ParserSpec.name_char. repeat match type of H with (if ?b then _ else _) = _ => destruct b eqn:? end; try discriminate; lia. Qed.
Lemma literal_names l : literal_ok l -> exists w, Forall ParserSpec.name_char w /\ w <> [] /\ (literal_text l = w \/ literal_text l = 36 :: w \/ literal_text l = 37 :: w).
Proof.
  intros (H1 & H2 & H3).
  assert (D : Forall ParserSpec.name_char (literal_digits l)) by (eapply Forall_impl; [|exact H2]; intros; eapply digit_name; eauto).
  assert (S : forall c, (c = 72 \/ c = 104 \/ c = 66 \/ c = 98 \/ c = 68 \/ c = 100) -> Forall ParserSpec.name_char (literal_digits l ++ [c])).
  { intros c Hc. apply Forall_app. split; [exact D|]. constructor; [|constructor]. unfold ParserSpec.name_char. lia. }
  destruct l as [ds|ds h|ds|ds h|ds|ds h]; cbn [literal_digits literal_text] in *.
  - exists ds. auto.
  - exists (ds ++ [h]). split; [apply S; tauto|]. split; [now destruct ds|auto].
  - exists ds. auto.
  - exists (ds ++ [h]). split; [apply S; tauto|]. split; [now destruct ds|auto].
  - exists ds. auto.
  - exists (ds ++ [h]). split; [apply S; tauto|]. split; [now destruct ds|auto].
Qed.
Lemma made_atom a : atom_ok a -> made (atom_text a).
Proof.
  destruct a as [l| |n|c|c]; cbn [atom_ok atom_text]; intros H.
  - destruct (literal_names l H) as (w & Hw & _ & [->|[->| ->]]); [now apply made_names|apply (made_app [36])|apply (made_app [37])];
      try (now apply made_names); now apply made_check.
  - now apply made_check.
  - apply made_names, H.
  - exists [PLit c]. split; [reflexivity|]. constructor; [|constructor]. now constructor.
  - exists [PEsc c]. split; [reflexivity|]. constructor; [|constructor]. constructor.
Qed.
Scheme writes_term_mut := Induction for writes_term Sort Prop with writes_mut := Induction for writes Sort Prop.
Combined Scheme writes_ind2 from writes_term_mut, writes_mut.

(** How an expression begins: with a name or number alone, or one followed by something else, or
    with a sign, a quote, a parenthesis. *)
Definition begins (te : text) : Prop :=
  exists w, Forall ParserSpec.name_char w /\
    ((te = w /\ w <> []) \/ (exists c t, te = w ++ c :: t /\ ~ ParserSpec.name_char c /\ ~ blank c) \/
     (exists b c t, te = w ++ b ++ c :: t /\ w <> [] /\ b <> [] /\ Forall blank b /\ ~ ParserSpec.letter_or_digit c /\ ~ blank c)).
Definition finishes (te : text) : Prop := exists t c, te = t ++ [c] /\ ~ blank c /\ c <> 10 /\ c <> 13.
Lemma finishes_app a b : finishes b -> finishes (a ++ b).
Proof. intros (t & c & -> & H). exists (a ++ t), c. split; [apply app_assoc|exact H]. Qed.
Lemma name_nonblank c : ParserSpec.name_char c -> ~ blank c.
Proof. unfold ParserSpec.name_char, blank. simpl. lia. Qed.
Lemma name_inline c : ParserSpec.name_char c -> ~ blank c /\ c <> 10 /\ c <> 13.
Proof. unfold ParserSpec.name_char, ParserSpec.letter_or_digit, blank. simpl. lia. Qed.
Lemma finishes_names w : Forall ParserSpec.name_char w -> w <> [] -> finishes w.
Proof. intros H N. destruct (exists_last N) as (t & c & ->). apply Forall_app in H as (_ & H). inversion H; subst. exists t, c. split; [reflexivity|now apply name_inline]. Qed.
Lemma special c : In c [36; 37; 39; 40; 43; 45; 126] -> ~ ParserSpec.name_char c /\ ~ blank c.
Proof. unfold ParserSpec.name_char, blank. simpl. lia. Qed.
Lemma begins_special c t : In c [36; 37; 39; 40; 43; 45; 126] -> begins (c :: t).
Proof. intros H. exists []. split; [constructor|]. right. left. exists c, t. split; [reflexivity|]. now apply special. Qed.
Lemma atom_shape a : atom_ok a -> begins (atom_text a) /\ finishes (atom_text a).
Proof.
  destruct a as [l| |n|c|c]; cbn [atom_ok atom_text]; intros H.
  - destruct (literal_names l H) as (w & Hw & Hn & [->|[->| ->]]).
    + split; [exists w; split; [exact Hw|now left]|now apply finishes_names].
    + split; [apply begins_special; simpl; lia|]. apply (finishes_app [36]). now apply finishes_names.
    + split; [apply begins_special; simpl; lia|]. apply (finishes_app [37]). now apply finishes_names.
  - split; [apply begins_special; simpl; lia|]. exists [], 36. split; [reflexivity|]. unfold blank. lia.
  - destruct H as (_ & (x & t & -> & _) & H). split; [exists (x :: t); split; [exact H|left; split; [reflexivity|discriminate]]|apply finishes_names; [exact H|discriminate]].
  - split; [apply begins_special; simpl; lia|]. exists [39; c], 39. split; [reflexivity|]. unfold blank. lia.
  - split; [apply begins_special; simpl; lia|]. exists [39; 92; c], 39. split; [reflexivity|]. unfold blank. lia.
Qed.
Lemma sign_shape g : match sign_text g with [] => g = NoSign | c :: t => In c [43; 45; 126] end.
Proof. destruct g; vm_compute; auto. Qed.
Lemma op_head o : exists c t, spelling o = c :: t /\ ~ ParserSpec.letter_or_digit c /\ ~ blank c /\ (ParserSpec.name_char c -> o = NotEqual).
Proof. destruct o; eexists _, _; (split; [reflexivity|]); (split; [unfold ParserSpec.letter_or_digit; simpl; lia|]); (split; [unfold blank; simpl; lia|]); intros H; try reflexivity; exfalso; revert H; unfold ParserSpec.name_char; simpl; lia. Qed.
Lemma expression_shape : (forall t tt, writes_term t tt -> made tt /\ begins tt /\ finishes tt) /\
  (forall e te, writes e te -> made te /\ begins te /\ finishes te).
Proof.
  apply writes_ind2.
  - intros g w a Ha Hw Hg. destruct (atom_shape a Ha) as (B & F). split; [|split].
    + apply made_app; [apply made_sign|]. apply made_app; [now apply made_blanks|now apply made_atom].
    + pose proof (sign_shape g) as S. destruct (sign_text g) as [|c t] eqn:E; [rewrite (Hg S); exact B|]. cbn [app]. apply begins_special. simpl in *. lia.
    + now apply finishes_app, finishes_app.
  - intros g w w1 e te w2 Hw Hg Hw1 _ (M & B & F) Hw2. split; [|split].
    + apply made_app; [apply made_sign|]. apply made_app; [now apply made_blanks|].
      destruct M as (l & El & Hl). exists [PGroup (map PChar w1 ++ l ++ map PChar w2)]. split.
      * unfold pieces_text. cbn [flat_map piece_text]. rewrite app_nil_r. fold (pieces_text (map PChar w1 ++ l ++ map PChar w2)).
        rewrite !pieces_app, !map_pchar, El, <- !app_assoc. reflexivity.
      * constructor; [|constructor]. constructor. apply Forall_app. split; [|apply Forall_app; split];
          (eapply Forall_impl; [intros q; apply piece_weak|]); [now apply blanks_ok|exact Hl|now apply blanks_ok].
    + pose proof (sign_shape g) as S. destruct (sign_text g) as [|c t] eqn:E; cbn [app]; [rewrite (Hg S); cbn [app]|]; apply begins_special; simpl in *; lia.
    + apply finishes_app, finishes_app. apply (finishes_app [40]), finishes_app, finishes_app, finishes_app. exists [], 41. split; [reflexivity|]. unfold blank. lia.
  - intros t tt _ H. exact H.
  - intros e te w1 o w2 t tt We (M1 & B1 & F1) Hw1 Hw2 _ (M2 & B2 & F2) Hne. split; [|split].
    + repeat apply made_app; auto using made_blanks, made_op.
    + destruct B1 as (w & Hw & [(-> & Hn)|[(c & t1 & -> & Hc)|(b & c & t1 & -> & Hb)]]).
      * destruct (op_head o) as (c & ot & Eo & O1 & O2 & O3). destruct w1 as [|x w1].
        -- cbn [app]. destruct (alnumb c || memb c (zs "_[]!?.")) eqn:K.
           ++ assert (N : ParserSpec.name_char c) by (unfold ParserSpec.name_char; simpl; unfold alnumb, memb in K; simpl in K; lia).
              rewrite (O3 N) in *. exists (w ++ [33]). split; [apply Forall_app; split; [exact Hw|constructor; [|constructor]; unfold ParserSpec.name_char; simpl; lia]|].
              right. left. exists 61, (w2 ++ tt). split; [rewrite <- app_assoc; reflexivity|]. unfold ParserSpec.name_char, blank. simpl. lia.
           ++ exists w. split; [exact Hw|]. right. left. exists c, (ot ++ w2 ++ tt). split; [rewrite Eo; reflexivity|]. split; [|exact O2].
              unfold ParserSpec.name_char; simpl; unfold alnumb, memb in K; simpl in K; lia.
        -- exists w. split; [exact Hw|]. right. right. exists (x :: w1), c, (ot ++ w2 ++ tt). split; [rewrite Eo; reflexivity|].
           split; [exact Hn|]. split; [discriminate|]. split; [exact Hw1|]. auto.
      * exists w. split; [exact Hw|]. right. left. exists c, (t1 ++ w1 ++ spelling o ++ w2 ++ tt). split; [now rewrite <- app_assoc|exact Hc].
      * exists w. split; [exact Hw|]. right. right. exists b, c, (t1 ++ w1 ++ spelling o ++ w2 ++ tt). split; [now rewrite <- !app_assoc|exact Hb].
    + now apply finishes_app, finishes_app, finishes_app, finishes_app.
Qed.
Lemma nameb_iff c : alnumb c || memb c (zs "_[]!?.") = true <-> MatchSpec.name_char c.
Proof. rewrite alnumb_iff. exact (nc_iff c). Qed.
Lemma name_eq c : MatchSpec.name_char c <-> ParserSpec.name_char c.
Proof. unfold MatchSpec.name_char, ParserSpec.name_char, MatchSpec.letter_or_digit. tauto. Qed.
Lemma first_word_app w r : Forall MatchSpec.name_char w -> (r = [] \/ ~ MatchSpec.name_char (hd0 r)) -> first_word (w ++ r) = w.
Proof.
  intros H Hr. induction H as [|c w Hc H IH]; cbn [app first_word].
  - destruct r as [|c r]; [reflexivity|]. cbn [first_word]. destruct Hr as [Hr|Hr]; [discriminate|]. cbn [hd0] in Hr.
    destruct (alnumb c || memb c (zs "_[]!?.")) eqn:E; [|reflexivity]. now apply nameb_iff in E.
  - apply nameb_iff in Hc. rewrite Hc. now f_equal.
Qed.
(** An expression of the grammar of C01 can be an operand when it begins neither with a
    parenthesis nor with a register name of the instruction. *)
Theorem c12_operand o e te : writes e te -> hd0 te <> 40 -> ~ reserved o (first_word te) -> exists l, pieces_text l = te /\ plain_ok o l.
Proof.
  intros He H40 Hres. destruct (proj2 expression_shape e te He) as ((l & El & Hl) & (w & Hw & B) & (tf & cf & Ef & Hf & _)).
  assert (Hw' : Forall MatchSpec.name_char w) by (eapply Forall_impl; [|exact Hw]; intros; now apply name_eq).
  exists l. split; [exact El|]. split; [exact Hl|]. split; [exists tf, cf; rewrite El; auto|]. rewrite El.
  destruct B as [(-> & Hn)|[(c & t & -> & Hc1 & Hc2)|(b & c & t & -> & Hn & Hbn & Hb & Hc1 & Hc2)]].
  - rewrite <- (app_nil_r w), first_word_app in Hres by auto. exists w, [], []. rewrite !app_nil_r.
    split; [reflexivity|]. split; [exact Hw'|]. split; [constructor|]. split; [exact Hres|]. split; [exact Hn|]. split; [reflexivity|now left].
  - rewrite first_word_app in Hres by (auto; right; cbn [hd0]; now rewrite name_eq). exists w, [], (c :: t).
    split; [reflexivity|]. split; [exact Hw'|]. split; [constructor|]. split; [exact Hres|]. split; [now destruct w|]. split; [reflexivity|]. right.
    exists c, t. split; [reflexivity|]. split; [intros K; apply Hc1; unfold ParserSpec.name_char, MatchSpec.letter_or_digit in *; tauto|].
    split; [exact Hc2|]. split; [intros _; now rewrite name_eq|]. intros ->. exact H40.
  - rewrite first_word_app in Hres.
    + exists w, b, (c :: t). split; [reflexivity|]. split; [exact Hw'|]. split; [exact Hb|]. split; [exact Hres|]. split; [now destruct w|]. split; [congruence|]. right.
      exists c, t. split; [reflexivity|]. split; [exact Hc1|]. split; [exact Hc2|]. split; congruence.
    + exact Hw'.
    + right. destruct b as [|x b]; [congruence|]. cbn [app hd0]. inversion Hb; subst. rewrite name_eq. intros K. now apply name_nonblank in K.
Qed.
Print Assumptions c12_operand.
(** A displacement: a sign and an expression. *)
Theorem c12_displacement e te : writes e te -> hd0 te = 43 \/ hd0 te = 45 -> exists l, pieces_text l = te /\ index_ok l.
Proof.
  intros He Hh. destruct (proj2 expression_shape e te He) as ((l & El & Hl) & _ & (tf & cf & Ef & Hf & _)). exists l. split; [exact El|].
  split; [exact Hl|]. split; [exists tf, cf; rewrite El; auto|]. rewrite El. destruct te as [|c t]; [cbn in Hh; lia|]. exists c, t. auto.
Qed.
Print Assumptions c12_displacement.

(** * The whole statement *)
Fixpoint names_once (l : list opcode) : bool :=
  match l with [] => true | o :: l' => forallb (fun p => negb (eqbl_ci (op_name o) (op_name p))) l' && names_once l' end.
Lemma tables_once : names_once opcode_list && names_once opcode_list_ez80 = true.
Proof. vm_compute. reflexivity. Qed.
Lemma tables_names : forallb (fun o => forallb isalnum (op_name o)) (opcode_list ++ opcode_list_ez80) = true.
Proof. vm_compute. reflexivity. Qed.
Lemma ci_trans : forall a b c, eqbl_ci a b = true -> eqbl_ci a c = true -> eqbl_ci b c = true.
Proof.
  induction a as [|x a IH]; intros [|y b] [|z c] H1 H2; try discriminate; [reflexivity|]. simpl in *.
  apply andb_true_iff in H1 as (H1 & H3). apply andb_true_iff in H2 as (H2 & H4). rewrite (IH _ _ H3 H4). lia.
Qed.
Lemma strncaseq_exact : forall name r o, Forall (fun c => isalnum c = true) o -> isalnum (hd0 r) = false ->
  strncaseq (Nat.max (length o) (length name)) (name ++ r) o = true -> eqbl_ci name o = true.
Proof.
  induction name as [|x name IH]; intros r o Ho Hr H; cbn [app length] in *.
  - destruct o as [|y o]; [reflexivity|]. cbn [length Nat.max strncaseq] in H. destruct r as [|z r]; [discriminate|]. cbn [hd0] in Hr.
    apply andb_true_iff in H as (H & _). inversion Ho; subst. apply same_iff in H. apply lod_iff in H2.
    assert (isalnum z = true) by (apply lod_iff; unfold same_char, MatchSpec.letter_or_digit in *; lia). congruence.
  - destruct o as [|y o]; [discriminate|]. cbn [length Nat.max strncaseq eqbl_ci] in *. apply andb_true_iff in H as (-> & H). inversion Ho; subst.
    eapply IH; eauto.
Qed.
Lemma find_exact name r o : isalnum (hd0 r) = false -> forall l, names_once l = true -> forallb (fun o => forallb isalnum (op_name o)) l = true ->
  In o l -> eqbl_ci name (op_name o) = true -> exists later, find_opcode (name ++ r) (length name) l = o :: later.
Proof.
  intros Hr. induction l as [|p l IH]; intros H1 H2 Hi Hn; [destruct Hi|]. cbn [names_once forallb find_opcode] in *.
  apply andb_true_iff in H1 as (H1 & H3). apply andb_true_iff in H2 as (H2 & H4).
  destruct (strncaseq _ _ (op_name p)) eqn:E.
  - exists l. destruct Hi as [->|Hi]; [reflexivity|]. exfalso. apply strncaseq_exact in E; [|apply Forall_forall; now apply forallb_forall|exact Hr].
    rewrite forallb_forall in H1. specialize (H1 o Hi). rewrite (ci_trans _ _ _ E Hn) in H1. discriminate.
  - destruct Hi as [->|Hi]; [rewrite strncaseq_app in E by exact Hn; discriminate|]. now apply IH.
Qed.

(** What the statement's name ends with, and the code of the suffix: none outside eZ80 mode. *)
Definition suffix_code (C : cfg) (s : st) (name t : text) (code : Z) : Prop :=
  (t = [] /\ code = -1 /\ (c_ez80 C = true -> ~ In 46 name)) \/
  (c_ez80 C = true /\ exists x, suffix_meaning (s_adl s) (lower t) = Some x /\ code = bits x).
Lemma suffix_head adl t x : suffix_meaning adl (lower t) = Some x -> exists u, t = 46 :: u.
Proof.
  intros H. destruct t as [|c t]; [discriminate|]. exists t. f_equal.
  assert (K : tolower c = 46). { unfold suffix_meaning in H. cbn [lower map] in H. repeat match type of H with (if ?b then _ else _) = _ => destruct b eqn:? end; try discriminate;
    match goal with K : eqbl _ _ = true |- _ => apply eqbl_eq in K; apply (f_equal hd0) in K; exact K end. }
  unfold tolower, isupper in K. destruct (_ && _) eqn:E in K; lia.
Qed.
(** A whole instruction statement: name in any case, suffix, operands.  What is written is the
    row of that form with those operand texts, and assembly goes on after the statement. *)
Theorem c12_statement C R name t b o i ws ops rest code s :
  s_opcodes s = opcode_list \/ s_opcodes s = opcode_list_ez80 -> In o (s_opcodes s) -> eqbl_ci name (op_name o) = true ->
  Forall MatchSpec.name_char (name ++ t) -> suffix_code C s name t code -> Forall blank b ->
  is_name_char (hd0 (b ++ wtext ws ++ rest)) = false ->
  In i (op_instrs o) -> spells (i_args i) ws ops -> Forall (fun w => item_ok o (fst w)) ws -> zlen (wtext ws) <= 254 -> line_over rest ->
  exists j args, first_like (i_args i) (op_instrs o) = Some j /\ i_args j = i_args i /\ map (fun a => seg (fst a) (snd a)) args = ops /\
    handle_opcode_or_macro C R (name ++ t ++ b ++ wtext ws ++ rest) s =
    (size <- write_instruction_data C R j args code ;; add_pc size ;;;
     adl <- get s_adl ;;
     let penalty := (if 0 <=? code then 1 else 0) + (if ((code <? 0) && adl) || (0 <? code) then i_adl j else 0) in
     add_stats size (i_min j + penalty) (i_max j + penalty) ;;; ret rest) s.
Proof.
  intros Htbl Ho Hn Hnm Hc Hb Hx Hi Hs Hok Hlen Hr.
  assert (Ho2 : In o (opcode_list ++ opcode_list_ez80)) by (apply in_or_app; destruct Htbl as [<-|<-]; auto).
  pose proof tables_once as T1. apply andb_true_iff in T1 as (T1 & T2). pose proof tables_names as T3. rewrite forallb_app in T3. apply andb_true_iff in T3 as (T3 & T4).
  assert (U1 : names_once (s_opcodes s) = true) by (destruct Htbl as [->| ->]; assumption).
  assert (U2 : forallb (fun o => forallb isalnum (op_name o)) (s_opcodes s) = true) by (destruct Htbl as [->| ->]; assumption).
  assert (Hd : isalnum (hd0 (t ++ b ++ wtext ws ++ rest)) = false).
  { destruct Hc as [(-> & _)|(_ & x & Hm & _)].
    - cbn [app]. unfold is_name_char in Hx. apply orb_false_iff in Hx as (Hx & _). exact Hx.
    - destruct (suffix_head _ _ _ Hm) as (u & ->). reflexivity. }
  destruct (find_exact name (t ++ b ++ wtext ws ++ rest) o Hd _ U1 U2 Ho Hn) as (later & Fe).
  destruct (c12_row o i ws ops ((name ++ t) ++ b) rest later s Ho2 Hi Hs Hok Hlen Hr) as (j & args & _ & A1 & A2 & A3 & A4).
  exists j, args. split; [exact A1|]. split; [exact A2|]. split; [exact A4|].
  unfold handle_opcode_or_macro. cbv zeta. rewrite !bind_get.
  rewrite (app_assoc name t). rewrite (skip_name_app (name ++ t)); [|eapply Forall_impl; [|exact Hnm]; intros; now apply name_eq|exact Hx]. rewrite seg_app.
  assert (E : (if c_ez80 C then parse_suffix (s_adl s) (name ++ t) else (-1, length (name ++ t))) = (code, length name)).
  { destruct Hc as [(-> & -> & Hd46)|(-> & x & Hm & ->)].
    - rewrite app_nil_r. destruct (c_ez80 C); [apply c36_no_suffix; auto|reflexivity].
    - now apply suffix_ok. }
  rewrite E. rewrite <- (app_assoc name t). rewrite Fe. unfold handle_opcode.
  assert (F : field_ok o ws).
  { pose proof tables_fine as T. unfold table_fine in T. rewrite forallb_forall in T. specialize (T o Ho2). rewrite forallb_forall in T. specialize (T i Hi).
    unfold row_fine in T. apply andb_true_iff in T as (T & _). apply andb_true_iff in T as (T & _). now destruct (spells_toks o _ _ _ Hs Hok 0 T) as (_ & F & _). }
  rewrite (sig_app o b rest) || rewrite (sig_app o ws b rest) by assumption.
  rewrite <- !app_assoc in A3. rewrite (bind_ok _ _ _ _ _ A3). reflexivity.
Qed.
Print Assumptions c12_statement.
(** A case: [ld ( Ix+5) , later + 2 ; note]. *)
Definition ex_field : field :=
  [(IChar (ch "("), zs " "); (IChar (ch "I"), []); (IChar (ch "x"), []); (IIndex (map PChar (zs "+5")), []); (IChar (ch ")"), zs " ");
   (IChar (ch ","), zs " "); (IPlain (map PChar (zs "later + 2")), zs " ")].
Definition ex_op : opcode := match find (fun o => eqbl (op_name o) (zs "LD")) opcode_list with Some o => o | None => mkopcode [] [] end.
Definition ex_row : instr :=
  match find (fun i => eqbl (i_args i) (zs "(IX@),&")) (op_instrs ex_op) with Some i => i | None => mkinstr [] [] 0 0 0 false 0 0 0 end.
Definition ex_before : text := zs "ld ".
Definition ex_rest : text := zs "; note".
Definition wordb (o : opcode) (w : text) : bool := existsb (eqbl (lower w)) (reserved_of o).
Lemma wordb_reserved o w : reserved o w -> wordb o w = true.
Proof.
  intros (i & v & H1 & H2 & _ & H3). apply existsb_exists. exists (map tolower v). split.
  - unfold reserved_of. apply in_concat. exists (map (map tolower) (words [] (i_args i))). split; [|now apply in_map]. now apply in_map with (f := fun i => map (map tolower) (words [] (i_args i))).
  - apply eqbl_eq. now apply same_lower.
Qed.
Example c12_hypotheses : In ex_op (opcode_list ++ opcode_list_ez80) /\ In ex_row (op_instrs ex_op) /\
  spells (i_args ex_row) ex_field [zs "+5"; zs "later + 2 "] /\ Forall (fun w => item_ok ex_op (fst w)) ex_field /\
  zlen (wtext ex_field) <= 254 /\ line_over ex_rest /\ i_data ex_row = [54; 221].
Proof.
  split. { apply in_or_app. left. unfold ex_op. destruct (find _ opcode_list) eqn:E; [now apply find_some in E|vm_compute in E; discriminate]. }
  split. { unfold ex_row. destruct (find _ (op_instrs ex_op)) eqn:E; [now apply find_some in E|vm_compute in E; discriminate]. }
  split.
  { replace (i_args ex_row) with (zs "(IX@),&") by reflexivity. unfold ex_field. change (zs "(IX@),&") with [40; 73; 88; ch "@"; 41; 44; 38].
    assert (B : Forall blank (zs " ")) by (constructor; [now left|constructor]).
    repeat (apply sp_char; [unfold wild; simpl; lia|cbv; discriminate|unfold same_char; cbv -[Z.add Z.sub Z.le]; lia|first [exact B|constructor]|]).
    change (zs "+5") with (pieces_text (map PChar (zs "+5")) ++ []). apply sp_index; [constructor|].
    repeat (apply sp_char; [unfold wild; simpl; lia|cbv; discriminate|unfold same_char; cbv -[Z.add Z.sub Z.le]; lia|first [exact B|constructor]|]).
    change (zs "later + 2 ") with (pieces_text (map PChar (zs "later + 2")) ++ zs " "). apply sp_plain; [unfold wild; simpl; lia|exact B|constructor]. }
  split.
  { assert (W : writes (Bin (Single (Leaf NoSign (Name (zs "later")))) Plus (Leaf NoSign (Num (Decimal (zs "2"))))) (zs "later + 2")).
    { change (zs "later + 2") with (zs "later" ++ zs " " ++ spelling Plus ++ zs " " ++ zs "2"). constructor; try discriminate; try (constructor; [now left|constructor]).
      - constructor. apply (W_leaf NoSign [] (Name (zs "later"))); [|constructor|reflexivity]. split; [discriminate|]. split; [exists 108, (zs "ater"); split; [reflexivity|unfold name_start; lia]|].
        repeat (apply Forall_cons; [unfold ParserSpec.name_char; simpl; lia|]). constructor.
      - apply (W_leaf NoSign [] (Num (Decimal (zs "2")))); [|constructor|reflexivity]. split; [discriminate|]. split; [|exact I]. constructor; [|constructor]. exists 2. split; [reflexivity|simpl; lia]. }
    assert (P : plain_ok ex_op (map PChar (zs "later + 2"))).
    { destruct (c12_operand ex_op _ _ W) as (l & El & Hl); [discriminate|intros K; apply wordb_reserved in K; vm_compute in K; discriminate|].
      destruct Hl as (_ & H2 & H3). split; [apply pchars; repeat (apply Forall_cons; [unfold bracket, line_ender; simpl; lia|]); constructor|].
      unfold closes. rewrite map_pchar, <- El. split; assumption. }
    unfold ex_field. repeat (apply Forall_cons; [first [exact I|exact P|idtac]|]); [|constructor].
    cbn [fst item_ok]. split; [apply pchars; repeat (apply Forall_cons; [unfold bracket, line_ender; simpl; lia|]); constructor|].
    split; [exists (zs "+"), 53; split; [reflexivity|unfold blank; lia]|]. exists 43, (zs "5"). split; [reflexivity|now left]. }
  split; [vm_compute; discriminate|]. split; [|vm_compute; reflexivity]. right. exists 59, (zs " note"). split; [reflexivity|]. unfold line_ender. simpl. lia.
Qed.
Example c12_case : ran "Ld ( Ix+5) , 3 + 2 ; note" false = Some (4, 4, [221; 54; 5; 5]) /\ ran "ld a,(ix)" false = Some (3, 3, [221; 126; 0]).
Proof. vm_compute. split; reflexivity. Qed.
