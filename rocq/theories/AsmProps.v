(** Whole programs: the file written is the one the reference assembler gives (C48), and what
    follows from it for forward references (C13), data (C37), fills and origins (C38), and
    addresses (C39). *)
From Verif Require Import Base BaseProofs State StorageModel OpcodeTables MainModel UtilsModel UtilsSpec UtilsProofs StorageSpec
  ParserSpec ParserProofs Knot ExportModel ExportSpec InstrSpec MatchSpec MatchProofs MatchProps AsmSpec AsmExpand AsmProofs AsmRef AsmRun.
#[local] Existing Instance no_params.
#[local] Existing Instance no_calls.
#[local] Existing Instance no_frame.
#[local] Existing Instance no_consts.

(** The command line: -E for the eZ80, -A for case-sensitive names, the two file names. *)
Definition command (ez80 case : bool) (input output : text) : list text :=
  (if ez80 then [zs "-E"] else []) ++ (if case then [zs "-A"] else []) ++ [input; output].
Definition instructions (ez80 : bool) : list opcode := if ez80 then opcode_list_ez80 else opcode_list.
(** A program, and what it assembles to, under these options. *)
Definition valid (w : world) (ez80 case : bool) (p : list line) : Prop :=
  program_ok (w_wrap w) ez80 (fold_name case) (reserved_name case) (instructions ez80) p.
Definition result (w : world) (ez80 case : bool) (p : list line) : option (list Z) :=
  assemble (w_wrap w) ez80 (fold_name case) (reserved_name case) p.
Definition symbols_of (w : world) (ez80 case : bool) (p : list line) : option table :=
  symbols (w_wrap w) ez80 (fold_name case) (reserved_name case) [] 0 (sections p).

Lemma read_command w ez80 case input output : hd0 input <> 45 -> hd0 output <> 45 ->
  read_args w args0 (command ez80 case input output) = AGo (mkargs true false false false ez80 case (Some input) (Some output) None [] None).
Proof.
  intros Hi Ho. assert (Ei : hd0 input =? 45 = false) by lia. assert (Eo : hd0 output =? 45 = false) by lia.
  assert (Base : forall a, a_input a = None -> a_output a = None -> read_args w a [input; output] =
     AGo (mkargs (a_normal a) (a_list a) (a_counter a) (a_symtable a) (a_ez80 a) (a_case a) (Some input) (Some output) (a_line a) (a_dirs a) (a_defs a))).
  { intros a Ia Oa. cbn [read_args]. rewrite Ei, Eo, Ia. cbn. now rewrite Oa. }
  unfold command. destruct ez80, case; cbn [app].
  - change (read_args w (mkargs true false false false true true None None None [] None) [input; output] = AGo (mkargs true false false false true true (Some input) (Some output) None [] None)). now rewrite Base.
  - change (read_args w (mkargs true false false false true false None None None [] None) [input; output] = AGo (mkargs true false false false true false (Some input) (Some output) None [] None)). now rewrite Base.
  - change (read_args w (mkargs true false false false false true None None None [] None) [input; output] = AGo (mkargs true false false false false true (Some input) (Some output) None [] None)). now rewrite Base.
  - now rewrite Base.
Qed.
Lemma predefined_names case file : forall w, ~ name_start (hd0 w) -> tfind (fold_name case w) (init_defines file) = None.
Proof.
  intros w H.
  assert (E : forall k, tfind k (init_defines file) = None \/ In k predefined).
  { intros k. change predefined with (map fst (init_defines file)). induction (init_defines file) as [|(a, d) t IH]; [now left|]. cbn [tfind map fst]. destruct (eqbl k a) eqn:Q; [apply eqbl_eq in Q; subst; right; now left|].
    destruct IH; [now left|right; now right]. }
  destruct (E (fold_name case w)) as [Q|Q]; [exact Q|]. exfalso. apply H.
  assert (Hd : exists c, hd0 (fold_name case w) = c /\ (65 <= c <= 90 \/ c = 95)).
  { unfold predefined in Q. simpl in Q. repeat (destruct Q as [<-|Q]; [eexists; split; [reflexivity|cbn; lia]|]). contradiction. }
  destruct Hd as (c & Hc & R). unfold fold_name in Hc. unfold name_start. destruct case; [lia|]. destruct w as [|y w]; [cbn in Hc; lia|]. cbn [map hd0] in *. unfold fold_case in Hc. destruct ((97 <=? y) && (y <=? 122)) eqn:Y; lia.
Qed.

(** * C48 *)
(** Every valid program that assembles to [b] does so without a message and with exit status 0;
    the only file written is the output file, with [b] in the format its name asks for, and the
    labels have the values of the reference. *)
Theorem c48_whole_program : forall w ez80 case fuel input output x stem p b,
  hd0 input <> 45 -> hd0 output <> 45 -> w_files w input = Some (program_text p) -> plain_name output x stem ->
  valid w ez80 case p -> result w ez80 case p = Some b -> zlen b <= 8000000 -> (length (program_text p) + 22 <= fuel)%nat ->
  exists t s, main fuel w (command ez80 case input output) = Done 0 [(output, exported_bytes x b)] (Some s) /\
    s_printed s = [] /\ symbols_of w ez80 case p = Some t /\
    forall n, option_map l_value (tfind (fold_name case n) (s_labels s)) = lookup (fold_name case) t n.
Proof.
  intros w ez80 case fuel input output x stem p b Hi Ho Hf Hp Va Re Rm Fu.
  set (a := mkargs true false false false ez80 case (Some input) (Some output) None [] None).
  set (C := mkconf w a).
  destruct (run_ok C eq_refl eq_refl eq_refl (init_defines input) [] input None output fuel p b x stem) as (T & s & Sy & P & Of & Pr & Lb); auto.
  { exact (predefined_names case input). }
  exists T, s. split; [|split; [exact Pr|split; [exact Sy|exact Lb]]].
  unfold main. assert (Ne : exists c l, command ez80 case input output = c :: l) by (destruct ez80, case; cbn; eauto). destruct Ne as (c & l & Ne). rewrite Ne. rewrite <- Ne. rewrite (read_command w ez80 case input output Hi Ho).
  change (match run_assembly C (knot C fuel) None output (init_state ez80 input [] (init_defines input)) with
        | Ok c s => Done c (rev (s_outfiles s)) (Some s)
        | Exit c s => Done c (rev (s_outfiles s)) (Some s)
        | Undef u => Crash u
        | NoFuel => OutOfFuel
        end = Done 0 [(output, exported_bytes x b)] (Some s)).
  change (run_assembly C (knot C fuel) None output (init_state ez80 input [] (init_defines input)) = Ok 0 s) in P. rewrite P, Of. reflexivity.
Qed.

(** ** A program *)
Definition ex_name (n : text) : expr := Single (Leaf NoSign (Name n)).
Definition ex_num (n : text) : expr := Single (Leaf NoSign (Num (Decimal n))).
Definition ex_diff : expr := Bin (ex_name (zs "done")) Minus (Leaf NoSign (Name (zs "start"))).
Definition ex_at (b : text) (e : expr) (t a : text) : written := mkwritten b e t a.
Definition no_op : opcode := mkopcode [] [].
Definition no_row : instr := mkinstr [] [] 0 0 0 false 0 0 0.
Definition op_of (n : text) : opcode := match find (fun o => eqbl (op_name o) n) opcode_list with Some o => o | None => no_op end.
Definition row_of (o : opcode) (pat : text) : instr := match find (fun i => eqbl (i_args i) pat) (op_instrs o) with Some i => i | None => no_row end.
Definition chars (t : text) : field := map (fun c => (IChar c, [])) t.
Definition plain (t b : text) : field := [(IPlain (map PChar t), b)].
Definition sp := zs " ".
Definition ex_ins (name : text) (pat : text) (gap : text) (f : field) (ops : list text) (es : list expr) : stmt :=
  SInstr name [] (op_of (map toupper name)) (row_of (op_of (map toupper name)) pat) gap f ops es.
Definition ex_line (x : section) (l : list section) (c : option text) : line := mkline x l c false.
Definition ex_program : list line :=
  [ ex_line (mksection None false sp (SOrg (zs "org") sp (ex_at [] (Single (Leaf NoSign (Num (HexDollar (zs "9D95"))))) (zs "$9D95") []))) [] None;
    ex_line (mksection (Some (zs "Start")) true sp (ex_ins (zs "ld") (zs "A,&") sp (chars (zs "a,") ++ plain (zs "count") []) [zs "count"] [ex_name (zs "count")])) [] None;
    ex_line (mksection None false sp (ex_ins (zs "jr") (zs "NZ,%") sp (chars (zs "nz,") ++ plain (zs "done") sp) [zs "done "] [ex_name (zs "done")]))
      [mksection None false sp (SData (zs "db") 1 sp [DNum (ex_at [] (ex_num (zs "1")) (zs "1") []); DStr [] (zs "hi") []; DNum (ex_at sp ex_diff (zs "done-start") sp)])]
      (Some (zs " data"));
    ex_line (mksection (Some (zs "count")) false sp (SEqu (zs "equ") sp (ex_at [] (ex_num (zs "5")) (zs "5") []))) [] None;
    ex_line (mksection (Some (zs "done")) true sp (ex_ins (zs "ret") [] [] [] [] [])) [] None;
    ex_line (mksection None false [] (SFill (zs "block") sp (ex_at [] (ex_num (zs "2")) (zs "2") []) None)) [] None ].
Example ex_text : program_text ex_program =
  zs " .org $9D95" ++ [10] ++ zs "Start: ld a,count" ++ [10] ++ zs " jr nz,done \ .db 1," ++ [34] ++ zs "hi" ++ [34] ++ zs ", done-start ; data" ++ [10] ++
  zs "count .equ 5" ++ [10] ++ zs "done: ret" ++ [10] ++ zs ".block 2" ++ [10].
Proof. reflexivity. Qed.
Definition ex_bytes : list Z := [62; 5; 32; 4; 1; 104; 105; 8; 201; 0; 0].
Lemma ex_result w : result w false false ex_program = Some ex_bytes.
Proof. unfold result. destruct (w_wrap w); vm_compute; reflexivity. Qed.

Ltac blanks := repeat first [apply Forall_nil | apply Forall_cons; [unfold blank; lia|]].
Lemma w_name n : name_ok n -> writes (ex_name n) n.
Proof. intros H. constructor. apply (W_leaf NoSign [] (Name n)); [exact H|constructor|reflexivity]. Qed.
Lemma w_num n : n <> [] -> Forall (digit_of 10) n -> writes (ex_num n) n.
Proof. intros N H. constructor. apply (W_leaf NoSign [] (Num (Decimal n))); [|constructor|reflexivity]. split; [exact N|]. split; [exact H|exact I]. Qed.
Definition name_okb (n : text) : bool :=
  negb (eqbl n (zs "_")) && match n with c :: _ => isalpha c || (c =? 95) | [] => false end && forallb is_name_char n.
Lemma name_okb_ok n : name_okb n = true -> name_ok n.
Proof.
  unfold name_okb. intros H. apply andb_true_iff in H as (H & H3). apply andb_true_iff in H as (H1 & H2). split; [intros ->; discriminate|]. split.
  - destruct n as [|c n]; [discriminate|]. exists c, n. split; [reflexivity|]. unfold name_start. unfold isalpha, isupper, islower in H2. lia.
  - rewrite forallb_forall in H3. apply Forall_forall. intros c Hc. apply ParserProofs.name_char_iff. now apply H3.
Qed.
Lemma op_in n : isSome (find (fun o => eqbl (op_name o) n) opcode_list) = true -> In (op_of n) opcode_list.
Proof. unfold op_of. destruct (find _ opcode_list) eqn:E; [|discriminate]. intros _. now apply find_some in E. Qed.
Lemma row_first o pat : isSome (find (fun i => eqbl (i_args i) pat) (op_instrs o)) = true ->
  find (fun i => eqbl (i_args i) (i_args (row_of o pat))) (op_instrs o) = Some (row_of o pat) /\ i_args (row_of o pat) = pat.
Proof.
  unfold row_of. destruct (find _ (op_instrs o)) eqn:E; [|discriminate]. intros _. destruct (find_some _ _ E) as (_ & Q). apply eqbl_eq in Q. split; [now rewrite Q|exact Q].
Qed.
Lemma plain_one o t : name_okb t = true -> forallb (fun c => negb (memb c [34; 39; 92; 40; 41; 44; 10; 13; 59])) t = true -> wordb o (first_word t) = false ->
  plain_ok o (map PChar t).
Proof.
  intros N F W. apply name_okb_ok in N. pose proof (w_name _ N) as Wt. assert (H40 : hd0 t <> 40). { destruct N as (_ & (c & u & -> & Ns) & _). cbn. unfold name_start in Ns. lia. }
  destruct (c12_operand o _ _ Wt H40) as (l & El & Hl). { intros K. apply wordb_reserved in K. congruence. }
  destruct Hl as (_ & H2 & H3). split.
  - apply pchars. rewrite forallb_forall in F. apply Forall_forall. intros c Hc. specialize (F c Hc). apply negb_true_iff in F.
    assert (Q : ~ In c [34; 39; 92; 40; 41; 44; 10; 13; 59]) by (intros K; apply memb_In in K; congruence). simpl in Q. unfold bracket, line_ender. lia.
  - unfold closes. rewrite map_pchar, <- El. split; assumption.
Qed.
Lemma spells_chars a pat ws ops : Forall2 (fun c' c => ~ wild c /\ c <> ch "@" /\ same_char c' c) a pat -> forall pat2, spells pat2 ws ops -> spells (pat ++ pat2) (chars a ++ ws) ops.
Proof. induction 1 as [|x y a pat (H1 & H2 & H3) F IH]; intros pat2 S; [exact S|]. cbn [app chars map]. constructor; auto. Qed.
Lemma chars_ok o a : Forall (fun w => item_ok o (fst w)) (chars a).
Proof. unfold chars. apply Forall_map. apply Forall_forall. intros c _. exact I. Qed.

Lemma ex_instr w name pat gap a t b c o i here now :
  o = op_of (map toupper name) -> i = row_of o (map toupper a ++ [c]) -> isSome (find (fun o => eqbl (op_name o) (map toupper name)) opcode_list) = true ->
  isSome (find (fun i => eqbl (i_args i) (map toupper a ++ [c])) (op_instrs o)) = true ->
  eqbl_ci name (op_name o) = true -> gap = sp -> pat = map toupper a ++ [c] -> wild c -> c <> ch "#" -> c <> ch "@" ->
  forallb (fun c => negb (is_wild c)) (map toupper a) = true ->
  Forall blank b -> name_okb t = true -> forallb (fun c => negb (memb c [34; 39; 92; 40; 41; 44; 10; 13; 59])) t = true -> wordb o (first_word t) = false ->
  zlen (wtext (chars a ++ plain t b)) <= 254 -> reserved_name false t = false ->
  stmt_ok w false (fold_name false) (reserved_name false) opcode_list here now (SInstr name [] o i gap (chars a ++ plain t b) [t ++ b] [ex_name t]).
Proof.
  intros Eo Ei F1 F2 Nm -> -> Wc Nh Na Nw Bb Nt Ft Rt Ln Tk. cbn [stmt_ok]. destruct (row_first o _ F2) as (R1 & R2). rewrite <- Ei in R1, R2.
  split; [rewrite Eo; now apply op_in|]. split; [exact R1|]. split; [exact Nm|]. split; [now left|]. split; [unfold sp; change (zs " ") with [32]; blanks|]. split; [discriminate|].
  assert (Wt : writes (ex_name t) t) by (apply w_name; now apply name_okb_ok).
  assert (Fa : Forall2 (fun c' c => ~ wild c /\ c <> ch "@" /\ same_char c' c) a (map toupper a)).
  { clear -Nw. induction a as [|x a IH]; [constructor|]. cbn [map forallb] in *. apply andb_true_iff in Nw as (N1 & N2). constructor; [|now apply IH]. apply negb_true_iff in N1.
    assert (Q : ~ In (toupper x) (zs "*&%@#^")) by (intros K; apply memb_In in K; unfold is_wild in N1; congruence). simpl in Q. unfold wild. simpl. split; [lia|]. split; [change (ch "@") with 64; lia|].
    unfold same_char, toupper, islower. destruct ((97 <=? x) && (x <=? 122)) eqn:E; lia. }
  assert (Nh2 : ~ In (ch "#") (map toupper a)).
  { intros K. rewrite forallb_forall in Nw. specialize (Nw _ K). discriminate. }
  split. { rewrite R2. apply spells_chars; [exact Fa|]. unfold plain. rewrite <- (map_pchar t) at 2. apply sp_plain; [exact Wc|exact Bb|constructor]. }
  split. { apply Forall_app. split; [apply chars_ok|]. constructor; [|constructor]. cbn [fst item_ok]. now apply plain_one. }
  split; [exact Ln|]. rewrite R2. split.
  { clear -Nw Wc Wt Bb Na. assert (K : forall l, forallb (fun c => negb (is_wild c)) l = true -> operands_written (l ++ [c]) [t ++ b] [ex_name t]).
    { induction l as [|x l IH]; intros H.
      - cbn [app operands_written]. assert (Q : is_wild c = true) by (unfold is_wild; apply memb_In; unfold wild in Wc; simpl in *; lia). rewrite Q. split; [cbn; lia|]. split; [|now split].
        exists t, b. split; [exact Wt|]. split; [exact Bb|]. replace (c =? ch "@") with false by lia. reflexivity.
      - cbn [forallb] in H. apply andb_true_iff in H as (H1 & H2). cbn [app operands_written]. destruct (is_wild x); [discriminate|]. now apply IH. }
    now apply K. }
  split.
  - constructor; [|constructor]. split; [cbn [names_of term_names forallb ex_name]; unfold usable; now rewrite Tk|]. apply orb_true_iff. right. reflexivity.
  - intros H. apply in_app_iff in H as [H|[H|[]]]; [contradiction|congruence].
Qed.
Section Example.
Variable w : world.
Notation ok := (stmt_ok (w_wrap w) false (fold_name false) (reserved_name false) opcode_list).
Lemma ex_sp : Forall blank sp. Proof. change sp with [32]; blanks. Qed.
Lemma ex_gap : gap_ok sp. Proof. split; [discriminate|exact ex_sp]. Qed.
Lemma ex_written n b a : n <> [] -> forallb isdigit n = true -> Forall blank b -> Forall blank a -> zlen n + zlen a <= 254 -> written_ok (ex_at b (ex_num n) n a).
Proof.
  intros N Dg Bb Ba Ln. split; [exact Bb|]. split; [|split; [exact Ba|split; [cbn; lia|exact Ln]]]. apply w_num; [exact N|].
  rewrite forallb_forall in Dg. apply Forall_forall. intros c Hc. specialize (Dg c Hc). unfold isdigit in Dg. exists (c - 48). unfold digit_value. rewrite Dg. split; [reflexivity|lia].
Qed.
Lemma ex_known n : n <> [] -> forallb isdigit n = true -> zlen n <= 254 -> known_ok (fold_name false) (reserved_name false) (ex_at [] (ex_num n) n []).
Proof. intros N Dg Ln. split; [apply ex_written; auto; change (zlen []) with 0; lia|reflexivity]. Qed.
Lemma ok_org here now : ok here now (SOrg (zs "org") sp (ex_at [] (Single (Leaf NoSign (Num (HexDollar (zs "9D95"))))) (zs "$9D95") [])).
Proof.
  split; [exact ex_gap|]. split; [reflexivity|]. split; [|reflexivity].
  split; [constructor|]. split; [|split; [constructor|split; [cbn; lia|vm_compute; discriminate]]]. constructor. apply (W_leaf NoSign [] (Num (HexDollar (zs "9D95")))); [|constructor|reflexivity].
  split; [discriminate|]. split; [|exact I]. repeat (apply Forall_cons; [eexists; split; [reflexivity|vm_compute; reflexivity]|]). constructor.
Qed.
Lemma ok_ld here now : ok here now (ex_ins (zs "ld") (zs "A,&") sp (chars (zs "a,") ++ plain (zs "count") []) [zs "count"] [ex_name (zs "count")]).
Proof.
  apply (ex_instr (w_wrap w) (zs "ld") (zs "A,&") sp (zs "a,") (zs "count") [] (ch "&")); try reflexivity; try discriminate; try (vm_compute; discriminate); [vm_compute; tauto|blanks].
Qed.
Lemma ok_jr here now : ok here now (ex_ins (zs "jr") (zs "NZ,%") sp (chars (zs "nz,") ++ plain (zs "done") sp) [zs "done "] [ex_name (zs "done")]).
Proof.
  apply (ex_instr (w_wrap w) (zs "jr") (zs "NZ,%") sp (zs "nz,") (zs "done") sp (ch "%")); try reflexivity; try discriminate; try (vm_compute; discriminate); [vm_compute; tauto|exact ex_sp].
Qed.
Lemma ok_db here now : ok here now (SData (zs "db") 1 sp [DNum (ex_at [] (ex_num (zs "1")) (zs "1") []); DStr [] (zs "hi") []; DNum (ex_at sp ex_diff (zs "done-start") sp)]).
Proof.
  split; [exact ex_gap|]. split; [discriminate|]. split; [|reflexivity].
  split; [apply ex_written; try discriminate; try reflexivity; constructor|]. split; [split; [reflexivity|apply orb_true_iff; right; reflexivity]|].
  split. { split; [constructor|]. split; [constructor|]. split; [repeat (apply Forall_cons; [vm_compute; intuition discriminate|]); constructor|vm_compute; discriminate]. }
  split. { split; [exact ex_sp|]. split; [|split; [exact ex_sp|split; [cbn; lia|vm_compute; discriminate]]].
    change (w_text (ex_at sp ex_diff (zs "done-start") sp)) with (zs "done" ++ [] ++ spelling Minus ++ [] ++ zs "start"). constructor; [|constructor|constructor| |discriminate].
    - apply w_name. now apply name_okb_ok.
    - apply (W_leaf NoSign [] (Name (zs "start"))); [now apply name_okb_ok|constructor|reflexivity]. }
  split; [split; [reflexivity|apply orb_true_iff; right; reflexivity]|exact I].
Qed.
Lemma ok_equ here now n : n <> [] -> forallb isdigit n = true -> zlen n <= 254 -> ok here now (SEqu (zs "equ") sp (ex_at [] (ex_num n) n [])).
Proof. intros N Dg Ln. split; [exact ex_gap|]. split; [reflexivity|]. now apply ex_known. Qed.
Lemma ok_ret here now : ok here now (ex_ins (zs "ret") [] [] [] [] []).
Proof.
  unfold ex_ins. cbn [stmt_ok]. destruct (row_first (op_of (map toupper (zs "ret"))) []) as (R1 & R2); [reflexivity|].
  split; [apply op_in; reflexivity|]. split; [exact R1|]. split; [reflexivity|]. split; [now left|]. split; [constructor|]. split; [reflexivity|]. rewrite R2. split; [constructor|]. split; [constructor|]. split; [vm_compute; discriminate|].
  split; [split; reflexivity|]. split; [constructor|]. intros [].
Qed.
Lemma ok_block here now : ok here now (SFill (zs "block") sp (ex_at [] (ex_num (zs "2")) (zs "2") []) None).
Proof. split; [exact ex_gap|]. split; [reflexivity|]. split; [|exact I]. apply ex_known; try discriminate; reflexivity. Qed.
Lemma ex_next now here x l now' here' : section_ok (w_wrap w) false (fold_name false) (reserved_name false) opcode_list now here x ->
  after (w_wrap w) false (fold_name false) (reserved_name false) now here x = Some (now', here') ->
  sections_ok (w_wrap w) false (fold_name false) (reserved_name false) opcode_list now' here' l ->
  sections_ok (w_wrap w) false (fold_name false) (reserved_name false) opcode_list now here (x :: l).
Proof. intros H1 H2 H3. cbn [sections_ok]. rewrite H2. now split. Qed.
Ltac step lemma := eapply ex_next; [|destruct (w_wrap w); vm_compute; reflexivity|];
  [split; [split; [first [exact ex_sp|constructor]|first [discriminate|intros _; now left]]|split; [first [exact I|now apply name_okb_ok]|apply lemma; try discriminate; reflexivity]]|].
Lemma ex_valid : valid w false false ex_program.
Proof.
  split; [discriminate|]. split; [vm_compute; repeat (apply Forall_cons; [discriminate|]); constructor|]. split.
  { repeat (apply Forall_cons; [first [exact I|cbn [line_ok l_comment ex_line]; vm_compute; repeat (apply Forall_cons; [split; discriminate|]); constructor]|]). constructor. }
  unfold ex_program, sections. cbn [flat_map ex_line l_first l_more app].
  step ok_org. step ok_ld. step ok_jr. step ok_db. step ok_equ. step ok_ret. step ok_block. exact I.
Qed.
Definition ex_first : list line :=
  define_first (fold_name false) (zs "done") sp (SEqu (zs "equ") sp (ex_at [] (ex_num (zs "40349")) (zs "40349") [])) ex_program.
Lemma ex_first_valid : valid w false false ex_first.
Proof.
  split; [discriminate|]. split; [vm_compute; repeat (apply Forall_cons; [discriminate|]); constructor|]. split.
  { unfold ex_first, define_first, ex_program. cbn [map]. repeat (apply Forall_cons; [first [exact I|unfold forget_line; cbn [line_ok l_comment ex_line]; vm_compute; repeat (apply Forall_cons; [split; discriminate|]); constructor]|]). constructor. }
  unfold ex_first. change (sections (define_first (fold_name false) (zs "done") sp (SEqu (zs "equ") sp (ex_at [] (ex_num (zs "40349")) (zs "40349") [])) ex_program)) with
    (mksection (Some (zs "done")) true sp (SEqu (zs "equ") sp (ex_at [] (ex_num (zs "40349")) (zs "40349") [])) :: sections (map (forget_line (fold_name false) (zs "done")) ex_program)).
  rewrite sections_forget. unfold ex_program, sections. cbn [flat_map ex_line l_first l_more app map].
  step ok_equ. step ok_org. step ok_ld. step ok_jr. step ok_db. step ok_equ.
  eapply ex_next; [|destruct (w_wrap w); vm_compute; reflexivity|]. { split; [split; [exact ex_sp|discriminate]|]. split; [exact I|apply ok_ret]. }
  step ok_block. exact I.
Qed.
End Example.
Definition ex_world : world := mkworld (fun n => if eqbl n (zs "prog.asm") then Some (program_text ex_program) else None) (fun _ => 0) (zs "/src") (fun _ => []) false.
Example c48_case : exists s, main 200 ex_world [zs "prog.asm"; zs "prog.bin"] = Done 0 [(zs "prog.bin", ex_bytes)] (Some s) /\ s_printed s = [].
Proof.
  assert (P : plain_name (zs "prog.bin") ExBinary (zs "prog")).
  { right. exists (zs "bin"). split; [reflexivity|]. split; [discriminate|]. split; [vm_compute; intuition discriminate|]. split; [reflexivity|now left]. }
  assert (H1 : hd0 (zs "prog.asm") <> 45) by discriminate. assert (H2 : hd0 (zs "prog.bin") <> 45) by discriminate.
  assert (H3 : w_files ex_world (zs "prog.asm") = Some (program_text ex_program)) by (vm_compute; reflexivity).
  assert (H4 : zlen ex_bytes <= 8000000) by (vm_compute; discriminate). assert (H5 : (length (program_text ex_program) + 22 <= 200)%nat) by (vm_compute; lia).
  destruct (c48_whole_program ex_world false false 200 _ _ _ _ _ _ H1 H2 H3 P (ex_valid ex_world) (ex_result ex_world) H4 H5) as (t & s & P1 & P2 & _).
  exists s. split; [exact P1|exact P2].
Qed.
Print Assumptions c48_whole_program.

(** * C13 *)
(** Let [L] be a symbol of the program with final value [v].  Remove its definition and define
    it on a new first line instead, by any expression with that value.  If both programs are valid
    they assemble to the same bytes; so a use before the definition means what a use after it
    means.  Programs are those of the reference assembler; a forward reference in an RST operand is
    always refused (c15_rst_forward_refuted). *)
Theorem c13_definition_first_partial : forall w ez80 case fuel input input2 output x stem p b t L v indent y e,
  hd0 input <> 45 -> hd0 input2 <> 45 -> hd0 output <> 45 -> plain_name output x stem ->
  w_files w input = Some (program_text p) -> valid w ez80 case p -> result w ez80 case p = Some b -> zlen b <= 8000000 ->
  symbols_of w ez80 case p = Some t -> lookup (fold_name case) t L = Some v -> small v = true ->
  assigned y = Some e -> val (w_wrap w) (fold_name case) 0 [(L, 0)] (w_expr e) = Some v ->
  let p2 := define_first (fold_name case) L indent y p in
  w_files w input2 = Some (program_text p2) -> valid w ez80 case p2 ->
  (length (program_text p) + 22 <= fuel)%nat -> (length (program_text p2) + 22 <= fuel)%nat ->
  exists s s2, main fuel w (command ez80 case input output) = Done 0 [(output, exported_bytes x b)] (Some s) /\
    main fuel w (command ez80 case input2 output) = Done 0 [(output, exported_bytes x b)] (Some s2).
Proof.
  intros w ez80 case fuel input input2 output x stem p b t L v indent y e Hi Hi2 Ho Hp F1 V1 Re Rm Sy Lt Sv Ay Va p2 F2 V2 Fu1 Fu2.
  assert (Cg : forall a c, fold_name case a = fold_name case c -> reserved_name case a = reserved_name case c) by (intros a c H; unfold reserved_name; now rewrite H).
  pose proof (defined_free (w_wrap w) ez80 (fold_name case) (reserved_name case) (sections p) [] 0 t L v Sy eq_refl Lt Cg) as Tk.
  pose proof (define_first_same (w_wrap w) ez80 (fold_name case) (reserved_name case) L v indent y e p b t Sy Lt Tk Ay Va Sv Re) as Re2.
  destruct (c48_whole_program w ez80 case fuel input output x stem p b Hi Ho F1 Hp V1 Re Rm Fu1) as (t1 & s1 & P1 & _).
  destruct (c48_whole_program w ez80 case fuel input2 output x stem p2 b Hi2 Ho F2 Hp V2 Re2 Rm Fu2) as (t2 & s2 & P2 & _).
  now exists s1, s2.
Qed.
(* In the example the label done (9D9D hexadecimal) is used before its definition, by a relative
   jump and in a data line. *)
Example c13_text : program_text ex_first =
  zs "done: .equ 40349" ++ [10] ++ zs " .org $9D95" ++ [10] ++ zs "Start: ld a,count" ++ [10] ++ zs " jr nz,done \ .db 1," ++ [34] ++ zs "hi" ++ [34] ++ zs ", done-start ; data" ++ [10] ++
  zs "count .equ 5" ++ [10] ++ zs " ret" ++ [10] ++ zs ".block 2" ++ [10].
Proof. reflexivity. Qed.
Definition ex_world2 : world :=
  mkworld (fun n => if eqbl n (zs "prog.asm") then Some (program_text ex_program) else Some (program_text ex_first)) (fun _ => 0) (zs "/src") (fun _ => []) true.
Example c13_case : exists s s2,
  main 200 ex_world2 [zs "prog.asm"; zs "prog.rom"] = Done 0 [(zs "prog.rom", exported_bytes ExRom ex_bytes)] (Some s) /\
  main 200 ex_world2 [zs "first.asm"; zs "prog.rom"] = Done 0 [(zs "prog.rom", exported_bytes ExRom ex_bytes)] (Some s2).
Proof.
  assert (P : plain_name (zs "prog.rom") ExRom (zs "prog")).
  { right. exists (zs "rom"). split; [reflexivity|]. split; [discriminate|]. split; [vm_compute; intuition discriminate|]. split; [reflexivity|right; now left]. }
  destruct (symbols_of ex_world2 false false ex_program) as [t|] eqn:Sy; [|vm_compute in Sy; discriminate].
  assert (Lt : lookup (fold_name false) t (zs "done") = Some 40349) by (vm_compute in Sy; injection Sy as <-; vm_compute; reflexivity).
  apply (c13_definition_first_partial ex_world2 false false 200 (zs "prog.asm") (zs "first.asm") (zs "prog.rom") ExRom (zs "prog") ex_program ex_bytes t (zs "done") 40349 sp
    (SEqu (zs "equ") sp (ex_at [] (ex_num (zs "40349")) (zs "40349") [])) (ex_at [] (ex_num (zs "40349")) (zs "40349") [])
    ltac:(discriminate) ltac:(discriminate) ltac:(discriminate) P ltac:(vm_compute; reflexivity) (ex_valid ex_world2) (ex_result ex_world2) ltac:(vm_compute; discriminate) Sy Lt
    ltac:(reflexivity) ltac:(reflexivity) ltac:(vm_compute; reflexivity) ltac:(vm_compute; reflexivity) (ex_first_valid ex_world2) ltac:(vm_compute; lia) ltac:(vm_compute; lia)).
Qed.
Print Assumptions c13_definition_first_partial.

(** * C37, C38, C39 *)
(** The program around a section: the symbols and address where it stands, the bytes before it,
    its own, and those after it. *)
Definition stands (w : world) (ez80 case : bool) (p : list line) (l1 : list section) (x : section) (l2 : list section)
    (t now : table) (here : Z) (now' : table) (here' : Z) (b1 b b2 : list Z) : Prop :=
  sections p = l1 ++ x :: l2 /\ symbols_of w ez80 case p = Some t /\
  reached (w_wrap w) ez80 (fold_name case) (reserved_name case) [] 0 l1 = Some (now, here) /\
  reached (w_wrap w) ez80 (fold_name case) (reserved_name case) [] 0 (l1 ++ [x]) = Some (now', here') /\
  result w ez80 case p = Some (b1 ++ b ++ b2) /\
  output (w_wrap w) ez80 (fold_name case) (reserved_name case) t [] 0 l1 = Some b1 /\
  output (w_wrap w) ez80 (fold_name case) (reserved_name case) t [] 0 (l1 ++ [x]) = Some (b1 ++ b).

Section Parts.
Variables (w : world) (ez80 case : bool).
Notation fold := (fold_name case).
Notation res := (reserved_name case).
Lemma reached_snoc l1 x now here : reached (w_wrap w) ez80 fold res [] 0 l1 = Some (now, here) ->
  reached (w_wrap w) ez80 fold res [] 0 (l1 ++ [x]) = after (w_wrap w) ez80 fold res now here x.
Proof.
  assert (G : forall l n h, reached (w_wrap w) ez80 fold res n h l = Some (now, here) -> reached (w_wrap w) ez80 fold res n h (l ++ [x]) = after (w_wrap w) ez80 fold res now here x).
  { induction l as [|y l IH]; intros n h E; cbn [reached app] in *.
    - injection E as -> ->. now destruct (after _ _ _ _ now here x) as [(q1, q2)|].
    - destruct (after _ _ _ _ n h y) as [(q1, q2)|]; [|discriminate]. now apply IH. }
  apply G.
Qed.
Lemma output_snoc t x l1 now here b1 c : reached (w_wrap w) ez80 fold res [] 0 l1 = Some (now, here) ->
  output (w_wrap w) ez80 fold res t [] 0 l1 = Some b1 -> emits (w_wrap w) ez80 fold res t now here x = Some c -> after (w_wrap w) ez80 fold res now here x <> None ->
  output (w_wrap w) ez80 fold res t [] 0 (l1 ++ [x]) = Some (b1 ++ c).
Proof.
  assert (G : forall l n h b1, reached (w_wrap w) ez80 fold res n h l = Some (now, here) -> output (w_wrap w) ez80 fold res t n h l = Some b1 ->
     emits (w_wrap w) ez80 fold res t now here x = Some c -> after (w_wrap w) ez80 fold res now here x <> None -> output (w_wrap w) ez80 fold res t n h (l ++ [x]) = Some (b1 ++ c)).
  { induction l as [|y l IH]; intros n h d E O Em Af; cbn [reached app output] in *.
    - injection E as -> ->. injection O as <-. rewrite Em. destruct (after _ _ _ _ now here x) as [(q1, q2)|]; [|congruence]. now rewrite app_nil_r.
    - destruct (after _ _ _ _ n h y) as [(q1, q2)|]; [|destruct (emits _ _ _ _ _ _ _ y); discriminate]. destruct (emits _ _ _ _ t n h y) as [dy|]; [|discriminate].
      destruct (output _ _ _ _ t q1 q2 l) as [r|] eqn:Q; [|discriminate]. injection O as <-. rewrite (IH _ _ r E Q Em Af). now rewrite app_assoc. }
  apply G.
Qed.
Lemma stands_intro p l1 x l2 b0 : sections p = l1 ++ x :: l2 -> result w ez80 case p = Some b0 ->
  exists t now here now' here' b1 b b2, b0 = b1 ++ b ++ b2 /\ stands w ez80 case p l1 x l2 t now here now' here' b1 b b2 /\
    emits (w_wrap w) ez80 fold res t now here x = Some b /\ after (w_wrap w) ez80 fold res now here x = Some (now', here') /\
    symbols (w_wrap w) ez80 fold res now' here' l2 = Some t.
Proof.
  intros E Re. unfold result, assemble in Re. destruct (symbols (w_wrap w) ez80 fold res [] 0 (sections p)) as [t|] eqn:Sy; [|discriminate]. rewrite E in Re, Sy.
  destruct (symbols_split _ _ _ _ _ _ _ _ _ Sy) as (now & here & R1 & Sy2). destruct (output_split _ _ _ _ _ _ _ _ _ _ _ _ R1 Re) as (b1 & b3 & O1 & O2 & ->).
  destruct (output_cons _ _ _ _ _ _ _ _ _ _ O2) as (b & b2 & now' & here' & Em & Af & O3 & ->).
  exists t, now, here, now', here', b1, b, b2. split; [reflexivity|]. cbn [symbols] in Sy2. rewrite Af in Sy2.
  split; [|split; [exact Em|split; [exact Af|exact Sy2]]]. split; [exact E|]. split; [unfold symbols_of; now rewrite E|]. split; [exact R1|]. split; [now rewrite (reached_snoc _ _ _ _ R1)|].
  split; [unfold result, assemble; rewrite E, Sy; exact Re|]. split; [exact O1|]. apply (output_snoc t x l1 now here b1 b); auto. congruence.
Qed.
End Parts.

(** The bytes of one operand of a data directive of the given width, at address [here]: those of
    the string, or the low bytes of the number, least significant first. *)
Definition datum_at (w : world) (case : bool) (t : table) (here : Z) (width : nat) (d : datum) (b : list Z) : Prop :=
  match d with
  | DStr _ u _ => b = u
  | DNum e => exists v, val (w_wrap w) (fold_name case) here t (w_expr e) = Some v /\ length b = width /\
                (forall j, (j < width)%nat -> nth j b 0 = v / 256 ^ Z.of_nat j mod 256) /\ (width = 1%nat -> -128 <= v <= 255)
  end.
Inductive data_at (w : world) (case : bool) (t : table) (width : nat) : Z -> list datum -> list Z -> Prop :=
  | at_nil here : data_at w case t width here [] []
  | at_cons here d l b c : datum_at w case t here width d b -> data_at w case t width (here + zlen b) l c -> data_at w case t width here (d :: l) (b ++ c).
Lemma data_bytes_at w ez80 case t width : forall l here b, data_bytes (w_wrap w) ez80 (fold_name case) t here width l = Some b -> data_at w case t width here l b.
Proof.
  induction l as [|d l IH]; intros here b E; [injection E as <-; constructor|]. cbn [data_bytes] in E. destruct d as [e|q u r].
  - destruct (val _ _ _ _ _) as [v|] eqn:V; [|discriminate]. destruct (number_bytes ez80 width v) as [c|] eqn:N; [|discriminate]. destruct (data_bytes _ _ _ _ (here + Z.of_nat width) width l) as [r|] eqn:Q; [|discriminate]. injection E as <-.
    pose proof (number_le _ _ _ _ N) as ->. constructor.
    + exists v. split; [exact V|]. split; [apply le_length|]. split; [intros j Hj; now apply le_nth|]. intros ->. cbn [number_bytes] in N. destruct (within (-128) v 255) eqn:W; [|discriminate]. unfold within in W. lia.
    + unfold zlen. rewrite le_length. now apply IH.
  - destruct (data_bytes _ _ _ _ (here + zlen u) width l) as [c|] eqn:Q; [|discriminate]. injection E as <-. constructor; [reflexivity|now apply IH].
Qed.
(** A data directive adds the bytes of its operands in order, and the address grows by their
    number. *)
Theorem c37_data : forall w ez80 case fuel input output x stem p l1 sec l2 word width gap l b0,
  hd0 input <> 45 -> hd0 output <> 45 -> plain_name output x stem -> w_files w input = Some (program_text p) ->
  valid w ez80 case p -> result w ez80 case p = Some b0 -> zlen b0 <= 8000000 -> (length (program_text p) + 22 <= fuel)%nat ->
  sections p = l1 ++ sec :: l2 -> x_stmt sec = SData word width gap l ->
  exists s t now here now' b1 b b2,
    main fuel w (command ez80 case input output) = Done 0 [(output, exported_bytes x (b1 ++ b ++ b2))] (Some s) /\
    stands w ez80 case p l1 sec l2 t now here now' (here + zlen b) b1 b b2 /\ data_at w case t width here l b.
Proof.
  intros w ez80 case fuel input output x stem p l1 sec l2 word width gap l b0 Hi Ho Hp F1 V1 Re Rm Fu E Sx.
  destruct (c48_whole_program w ez80 case fuel input output x stem p b0 Hi Ho F1 Hp V1 Re Rm Fu) as (t1 & s & P1 & _).
  destruct (stands_intro w ez80 case p l1 sec l2 b0 E Re) as (t & now & here & now' & here' & b1 & b & b2 & -> & St & Em & Af & Sy).
  assert (here' = here + zlen b) as -> by (eapply emits_len; [|exact Em|exact Af]; unfold moves_only; now rewrite Sx).
  exists s, t, now, here, now', b1, b, b2. split; [exact P1|]. split; [exact St|]. unfold emits in Em. rewrite Sx in Em. eapply data_bytes_at. exact Em.
Qed.
Example c37_case : data_at ex_world false [(zs "done", 40349); (zs "count", 5); (zs "start", 40341)] 1 40345
  [DNum (ex_at [] (ex_num (zs "1")) (zs "1") []); DStr [] (zs "hi") []; DNum (ex_at sp ex_diff (zs "done-start") sp)] [1; 104; 105; 8].
Proof. eapply (data_bytes_at ex_world false false). vm_compute. reflexivity. Qed.
Print Assumptions c37_data.

(** .fill and .block add the given number of copies of a byte; .org adds nothing and sets the
    address. *)
Theorem c38_fill_org : forall w ez80 case fuel input output x stem p l1 sec l2 b0,
  hd0 input <> 45 -> hd0 output <> 45 -> plain_name output x stem -> w_files w input = Some (program_text p) ->
  valid w ez80 case p -> result w ez80 case p = Some b0 -> zlen b0 <= 8000000 -> (length (program_text p) + 22 <= fuel)%nat ->
  sections p = l1 ++ sec :: l2 ->
  exists s t now here now' here' b1 b b2,
    main fuel w (command ez80 case input output) = Done 0 [(output, exported_bytes x (b1 ++ b ++ b2))] (Some s) /\
    stands w ez80 case p l1 sec l2 t now here now' here' b1 b b2 /\
    match x_stmt sec with
    | SFill _ _ en ev => exists n v, val (w_wrap w) (fold_name case) here now' (w_expr en) = Some n /\ 0 <= n /\
        match ev with Some e => val (w_wrap w) (fold_name case) here now' (w_expr e) = Some v | None => v = 0 end /\
        b = repeat (v mod 256) (Z.to_nat n) /\ here' = here + n
    | SOrg _ _ e => b = [] /\ val (w_wrap w) (fold_name case) here now' (w_expr e) = Some here'
    | _ => True
    end.
Proof.
  intros w ez80 case fuel input output x stem p l1 sec l2 b0 Hi Ho Hp F1 V1 Re Rm Fu E.
  destruct (c48_whole_program w ez80 case fuel input output x stem p b0 Hi Ho F1 Hp V1 Re Rm Fu) as (t1 & s & P1 & _).
  destruct (stands_intro w ez80 case p l1 sec l2 b0 E Re) as (t & now & here & now' & here' & b1 & b & b2 & -> & St & Em & Af & Sy).
  exists s, t, now, here, now', here', b1, b, b2. split; [exact P1|]. split; [exact St|]. destruct (x_stmt sec) eqn:Sx; try exact I.
  - rewrite after_goto in Af by (now rewrite Sx). unfold emits in Em. rewrite Sx in *. destruct (with_label _ _ now here sec) as [u|]; [|discriminate]. cbn [goto] in Af.
    destruct (fill_args (w_wrap w) (fold_name case) u here n v) as [(a, c)|] eqn:F; [|discriminate]. destruct (small (here + a)); [|discriminate]. injection Af as -> <-. injection Em as <-.
    unfold fill_args in F. destruct (val _ _ here now' (w_expr n)) as [a'|] eqn:Va; [|discriminate]. destruct (match v with Some e => _ | None => _ end) as [c'|] eqn:Vc; [|discriminate].
    destruct (within 0 a' 8000000 && within (-128) c' 255) eqn:W; [|discriminate]. injection F as -> ->. exists a, c. split; [reflexivity|]. split; [unfold within in W; lia|]. split; [destruct v; congruence|]. split; reflexivity.
  - rewrite after_goto in Af by (now rewrite Sx). unfold emits in Em. rewrite Sx in *. destruct (with_label _ _ now here sec) as [u|]; [|discriminate]. cbn [goto] in Af.
    destruct (val _ _ here u (w_expr e)) as [a|] eqn:Va; [|discriminate]. destruct (small a); [|discriminate]. injection Af as -> <-. injection Em as <-. split; [reflexivity|exact Va].
Qed.
(* The example begins with an .org and ends with a .block. *)
Example c38_case : exists l x y, sections ex_program = x :: l ++ [y] /\ moves_only x = true /\ match x_stmt y with SFill _ _ _ _ => True | _ => False end.
Proof. exists (firstn 5 (tl (sections ex_program))), (nth 0 (sections ex_program) (mksection None false [] SNone)), (nth 6 (sections ex_program) (mksection None false [] SNone)). split; [reflexivity|]. split; [reflexivity|exact I]. Qed.
Print Assumptions c38_fill_org.

(** Between two labels without an .org in between, the address has grown by the number of bytes
    written between them. *)
Theorem c39_labels_measure_output : forall w ez80 case fuel input output x stem p l1 sec1 l2 sec2 l3 n1 n2 b0,
  hd0 input <> 45 -> hd0 output <> 45 -> plain_name output x stem -> w_files w input = Some (program_text p) ->
  valid w ez80 case p -> result w ez80 case p = Some b0 -> zlen b0 <= 8000000 -> (length (program_text p) + 22 <= fuel)%nat ->
  sections p = l1 ++ sec1 :: l2 ++ sec2 :: l3 -> x_label sec1 = Some n1 -> x_label sec2 = Some n2 ->
  assigns (x_stmt sec1) = false -> assigns (x_stmt sec2) = false -> forallb (fun y => negb (moves_only y)) (sec1 :: l2) = true ->
  exists s a1 a2 b1 b b2,
    main fuel w (command ez80 case input output) = Done 0 [(output, exported_bytes x (b1 ++ b ++ b2))] (Some s) /\
    option_map l_value (tfind (fold_name case n1) (s_labels s)) = Some a1 /\
    option_map l_value (tfind (fold_name case n2) (s_labels s)) = Some a2 /\
    (exists t, symbols_of w ez80 case p = Some t /\
      AsmSpec.output (w_wrap w) ez80 (fold_name case) (reserved_name case) t [] 0 l1 = Some b1 /\
      AsmSpec.output (w_wrap w) ez80 (fold_name case) (reserved_name case) t [] 0 (l1 ++ sec1 :: l2) = Some (b1 ++ b)) /\
    a2 - a1 = zlen b.
Proof.
  intros w ez80 case fuel input output x stem p l1 sec1 l2 sec2 l3 n1 n2 b0 Hi Ho Hp F1 V1 Re Rm Fu E Lx1 Lx2 As1 As2 Mv.
  destruct (c48_whole_program w ez80 case fuel input output x stem p b0 Hi Ho F1 Hp V1 Re Rm Fu) as (t & s & P1 & _ & Sy0 & Lb).
  pose proof Sy0 as Sy. unfold symbols_of in Sy. rewrite E in Sy.
  unfold result, assemble in Re. unfold symbols_of in Sy0. rewrite Sy0, E in Re.
  destruct (symbols_split _ _ _ _ _ _ _ _ _ Sy) as (now & here & R1 & Sy1). destruct (output_split _ _ _ _ _ _ _ _ _ _ _ _ R1 Re) as (b1 & b3 & O1 & O3 & ->).
  change (sec1 :: l2 ++ sec2 :: l3) with ((sec1 :: l2) ++ sec2 :: l3) in *.
  destruct (symbols_split _ _ _ _ _ _ _ _ _ Sy1) as (now2 & here2 & R2 & Sy2). destruct (output_split _ _ _ _ _ _ _ _ _ _ _ _ R2 O3) as (b & b2 & O2 & O4 & ->).
  pose proof (output_len _ _ _ _ _ _ _ _ _ _ _ Mv O2 R2) as Hl.
  exists s, here, here2, b1, b, b2. split; [exact P1|].
  cbn [app symbols] in Sy1, Sy2. destruct (after _ _ _ _ now here sec1) as [(now1', here1')|] eqn:A1; [|discriminate]. destruct (after _ _ _ _ now2 here2 sec2) as [(now2', here2')|] eqn:A2; [|discriminate].
  split; [rewrite Lb; exact (label_address _ _ _ _ _ _ _ _ _ _ _ _ Lx1 As1 A1 Sy1)|]. split; [rewrite Lb; exact (label_address _ _ _ _ _ _ _ _ _ _ _ _ Lx2 As2 A2 Sy2)|].
  split; [|lia]. exists t. split; [exact Sy0|]. split; [exact O1|].
  clear -R1 O1 O2. revert R1 O1. generalize (@nil (text * Z)), 0. revert b1. induction l1 as [|y l1 IH]; intros b1 n0 h0 R1 O1; cbn [reached output app] in *.
  - injection R1 as -> ->. injection O1 as <-. exact O2.
  - destruct (after _ _ _ _ n0 h0 y) as [(q1, q2)|]; [|discriminate]. destruct (emits _ _ _ _ t n0 h0 y) as [dy|]; [|discriminate]. destruct (AsmSpec.output _ _ _ _ t q1 q2 l1) as [r|] eqn:Q; [|discriminate]. injection O1 as <-.
    rewrite (IH r q1 q2 R1 Q). now rewrite app_assoc.
Qed.
(* In the example, start and done are 8 bytes apart, although an .org precedes them. *)
Example c39_case : exists l1 s1 l2 s2 l3, sections ex_program = l1 ++ s1 :: l2 ++ s2 :: l3 /\ x_label s1 = Some (zs "Start") /\ x_label s2 = Some (zs "done") /\
  forallb (fun y => negb (moves_only y)) (s1 :: l2) = true /\ assigns (x_stmt s1) = false /\ assigns (x_stmt s2) = false.
Proof.
  exists [nth 0 (sections ex_program) (mksection None false [] SNone)], (nth 1 (sections ex_program) (mksection None false [] SNone)), (firstn 3 (skipn 2 (sections ex_program))),
    (nth 5 (sections ex_program) (mksection None false [] SNone)), (skipn 6 (sections ex_program)). repeat split; reflexivity.
Qed.
Print Assumptions c39_labels_measure_output.
