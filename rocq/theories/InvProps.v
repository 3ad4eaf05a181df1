(** C75 and C76: the label file and the output formats, for every program. *)
From Coq Require Import Sorting.Sorted Permutation.
From Verif Require Import Base BaseProofs State UtilsModel ErrorsModel StorageModel ParserModel PassTwoModel
  PreopModel PassOneModel DirectiveModel Knot ExportModel MainModel MonadProofs Whole StorageSpec StorageProofs StorageProps
  SessionSpec SessionProofs InvProofs IhexModel IhexSpec IhexProofs IhexProps ExportSpec ExportProofs ExportProps Validate Programs.

(** * The parts of a run that was completed *)
Lemma run_split C n output t s c s' : parts C n output t s = Ok c s' ->
  exists s1 s2 s3, part12 C n t s = Ok tt s1 /\ part3 C n output s1 = Ok tt s2 /\ part4 C output s2 = Ok tt s3 /\
    s_outfiles s' = s_outfiles s3.
Proof.
  unfold parts. intros E. apply bind_inv_ok in E as ([] & s1 & E1 & E). apply bind_inv_ok in E as ([] & s2 & E2 & E).
  apply bind_inv_ok in E as ([] & s3 & E3 & E). exists s1, s2, s3. split; [exact E1|]. split; [exact E2|]. split; [exact E3|].
  apply bind_inv_ok in E as ([] & s4 & E4 & E). injection E as _ <-.
  destruct (_ || _); injection E4 as <-; reflexivity.
Qed.
Lemma phase_split C body f s s' : phase C body f s = Ok tt s' ->
  exists s1, body (set_sess (s_sess s + 1) s) = Ok tt s1 /\ s_outfiles s' = s_outfiles s1 /\ s_mem s' = s_mem s1 /\
    s_pos s' = s_pos s1 /\ s_labels s' = s_labels s1.
Proof.
  unfold phase. rewrite start_eq. intros E. apply bind_inv_ok in E as ([] & s1 & E1 & E). exists s1. split; [exact E1|].
  apply bind_inv_ok in E as ([] & s2 & E2 & E).
  assert (G1 : s_outfiles s2 = s_outfiles s1 /\ s_mem s2 = s_mem s1 /\ s_pos s2 = s_pos s1 /\ s_labels s2 = s_labels s1).
  { revert E2. unfold replay_session, raise_exit, bind, get, upd, whenM, ret.
    repeat match goal with |- context [if ?b then _ else _] => destruct b end; intros E2; try discriminate E2; injection E2 as <-; repeat split. }
  assert (G2 : s_outfiles s' = s_outfiles s2 /\ s_mem s' = s_mem s2 /\ s_pos s' = s_pos s2 /\ s_labels s' = s_labels s2).
  { revert E. unfold end_session, bind, get, upd, whenM, ret.
    repeat match goal with |- context [if ?b then _ else _] => destruct b end; intros E; try discriminate E; injection E as <-; repeat split. }
  destruct G1 as (A1 & A2 & A3 & A4), G2 as (B1 & B2 & B3 & B4). rewrite B1, B2, B3, B4. auto.
Qed.

(** * C75 *)
Lemma pairs_of (cs : bool) l : table_ok l -> Forall (fun e => l_name (snd e) = fst e /\ (cs = false -> strup (fst e) = fst e)) l ->
  ForallOrdPairs (fun a b => same_name cs (fst a) (fst b) = false) (map (fun e => (l_name (snd e), l_value (snd e))) l).
Proof.
  intros H. induction H as [|e l Hs IH Hf]; intros Hn; simpl; constructor.
  - inversion Hn as [|? ? (N1 & N2) Hn']; subst. rewrite Forall_map. rewrite Forall_forall in *. intros e' He'. cbn [fst].
    destruct (Hn' e' He') as (M1 & M2). rewrite N1, M1. specialize (Hf e' He'). unfold key_lt in Hf.
    destruct (same_name cs (fst e) (fst e')) eqn:E; [|reflexivity]. exfalso.
    assert (Eq : fst e = fst e').
    { destruct cs; [now apply eqbl_eq|]. rewrite <- N2, <- M2 by reflexivity. clear -E. unfold same_name in E.
      revert E. generalize (fst e), (fst e'). intros a. induction a as [|x a IH]; intros [|y b]; simpl; try discriminate; [reflexivity|].
      intros E. apply andb_prop in E as (E1 & E2). rewrite (IH _ E2). f_equal. apply Z.eqb_eq in E1. exact E1. }
    rewrite Eq, text_ltb_irrefl in Hf. discriminate.
  - inversion Hn; subst. now apply IH.
Qed.

(** No letter a to z. *)
Definition no_small (t : text) : Prop := Forall (fun c => ~ (97 <= c <= 122)) t.
Lemma strup_no_small t : strup t = t -> no_small t.
Proof.
  unfold strup, no_small. induction t as [|c t IH]; simpl; intros E; constructor.
  - injection E as E _. change (fold_case c = c) in E. unfold fold_case in E. destruct ((97 <=? c) && (c <=? 122)) eqn:B; lia.
  - injection E as _ E. auto.
Qed.

(** The program, the options and the files are arbitrary: if the run succeeds and a label file
    was asked for, the file consists of one line for each label the two passes left ([labs]) and
    lines for defines ([ds]), in alphabetical order; no two of the labels have the same name,
    and the names are in upper case unless case matters. *)
Theorem c75_label_file fuel w argv c files s a :
  main fuel w argv = Done c files (Some s) -> c <> 3 ->
  read_args w args0 argv = AGo a -> a_symtable a = true ->
  exists input s1 labs ds l lines rest, a_input a = Some input /\
    files = (change_extension (match a_output a with Some o => o | None => change_extension input (zs "bin") end) (zs "lab"),
             List.concat lines) :: rest /\
    Forall2 (fun e line => label_line (fst e) (snd e) line) l lines /\
    StronglySorted (fun a b => alpha_le (fst a) (fst b)) l /\
    Permutation l (labs ++ ds) /\
    labs = map (fun e => (l_name (snd e), l_value (snd e))) (s_labels s1) /\ stays s1 s /\
    ForallOrdPairs (fun x y => same_name (a_case a) (fst x) (fst y) = false) labs /\
    (a_case a = false -> Forall (fun e => no_small (fst e)) labs).
Proof.
  intros H Hc Ha Hs. destruct (main_start _ _ _ _ _ _ H) as (a' & input & Ea & Ei & Ef & K). cbv zeta in Ef, K.
  rewrite Ha in Ea. injection Ea as <-. exists input.
  destruct K as [(-> & _)|(t & s0 & H1 & H2 & H3 & H4 & H5 & H6 & H7 & K)]; [exfalso; now apply Hc|].
  set (C := mkconf w a) in *. set (output := match a_output a with Some o => o | None => _ end) in *.
  assert (I0 : inv C s0). { unfold inv. rewrite H6, H7. repeat constructor. }
  destruct K as [K|K].
  2:{ apply parts_exit in K; auto; [|intros (e & He & _); rewrite H4 in He; contradiction]. exfalso. apply Hc, K. }
  destruct (run_split _ _ _ _ _ _ _ K) as (s1 & s2 & s3 & E1 & E2 & E3 & E4).
  pose proof (K_part12 C fuel t s0) as R1. rewrite E1 in R1. destruct (R1 I0) as (I1 & _).
  assert (ST : stays s1 s).
  { pose proof K as K'. unfold parts in K'. apply bind_inv_ok in K' as (u & s1' & F1 & F2). rewrite E1 in F1. injection F1 as _ <-.
    assert (G : keeps (rel C) _ (part3 C fuel output ;;; part4 C output ;;; whenM (c_symtable C || c_normal C || c_list C) (upd (set_infiles [])) ;;; get s_exitc)).
    { apply K_bind; [apply K_part3|]. intros. apply K_bind; [apply K_part4|]. intros. apply K_bind; [|intros; apply K_get].
      destruct (_ || _); [apply K_upd; reflexivity|apply K_ret]. }
    specialize (G s1). cbv beta in G. rewrite F2 in G. now apply G. }
  unfold part3 in E2. change (c_symtable C) with (a_symtable a) in E2. rewrite Hs in E2. cbn [whenM] in E2.
  destruct (phase_split _ _ _ _ _ E2) as (s4 & W & O1 & _).
  destruct (c23_label_file _ _ _ _ W) as (l & ds & lines & before & W1 & W2 & W3 & W4 & _).
  assert (B : before = []).
  { pose proof (out_part12 C fuel t s0) as O. rewrite E1 in O. unfold same_out in O.
    assert (W5 : s_outfiles s4 = s_outfiles s4) by reflexivity. revert W W1. clear -O H3.
    intros W W1. unfold write_labels in W. rewrite start_eq in W. rewrite !bind_get in W.
    apply bind_inv_ok in W as (l1 & sa & A1 & W). apply bind_inv_ok in W as ([] & sb & A2 & W). rewrite bind_get in W. injection W as W.
    subst s4. simpl in W1. injection W1 as _ <-.
    pose proof (keeps_lab C fuel same_out (s_defines s1) (lab_labels (s_labels s1)) same_out_rel) as G.
    specialize (G (set_sess (s_sess s1 + 1 + 1) (set_sess (s_sess s1 + 1) s1))). cbv zeta in A1. simpl in A1, G. rewrite A1 in G. unfold same_out in G. simpl in G.
    pose proof (keeps_end same_out same_out_rel (s_sess s1 + 1 + 1) sa) as G2. simpl in A2. rewrite A2 in G2. unfold same_out in G2. congruence. }
  exists s1, (map (fun e => (l_name (snd e), l_value (snd e))) (s_labels s1)), ds, l, lines,
    (if c_normal C then [(output, match s_outfiles s with (_, b) :: _ => b | [] => [] end)] else []).
  split; [exact Ei|]. split; [|split; [exact W2|split; [exact W3|split; [exact W4|split; [reflexivity|split; [exact ST|]]]]]].
  - rewrite Ef. pose proof (out_part4 C output s2) as O4. rewrite E3 in O4. destruct (c_normal C) eqn:En.
    + specialize (O4 eq_refl). destruct O4 as (b & Y). rewrite E4, Y, O1, W1, B. reflexivity.
    + unfold part4 in E3. rewrite En in E3. injection E3 as <-. rewrite E4, O1, W1, B. reflexivity.
  - destruct I1 as (T1 & T2 & _). split.
    + apply pairs_of; assumption.
    + intros Hcs. rewrite Forall_map. eapply Forall_impl; [|exact T2]. intros e (N1 & N2). cbn [fst]. rewrite N1. now apply strup_no_small, N2.
Qed.
Print Assumptions c75_label_file.

(** The hypotheses are met, with and without -A. *)
Definition two_labels : text := prog ["Top:"; " ld a,1"; "Mid: ld b,2"; "alpha .equ 10h"; " jp top"]%string.
Definition lab_of (o : outcome) : option (Z * list (text * text)) :=
  match o with Done c f (Some s) => Some (c, firstn 1 f) | _ => None end.
Definition lab_lines (l : list string) : text := List.concat (map (fun x => zs x ++ [10]) l).
Example c75_case :
  lab_of (main 60 (world_of [(zs "a.asm", two_labels)]) [zs "-L"; zs "a.asm"; zs "a.bin"]) = Some (0,
    [(zs "a.lab", lab_lines ["__BM_MSK_RGB = $FF00"; "__BM_SHD = $0002"; "__LINE = $0000"; "ALPHA = $0010"; "FALSE = $0000"; "MID = $0002";
       "SPASM = $0001"; "SPASMVER = $0002"; "TOP = $0000"; "TRUE = $0001"]%string)]) /\
  lab_of (main 60 (world_of [(zs "a.asm", prog ["top:"; " ld a,1"; "Top: ld b,2"; " jp top"]%string)]) [zs "-L"; zs "-A"; zs "a.asm"; zs "a.bin"]) = Some (0,
    [(zs "a.lab", lab_lines ["__BM_MSK_RGB = $FF00"; "__BM_SHD = $0002"; "__LINE = $0000"; "FALSE = $0000";
       "SPASM = $0001"; "SPASMVER = $0002"; "top = $0000"; "Top = $0002"; "TRUE = $0001"]%string)]).
Proof. split; vm_compute; reflexivity. Qed.

(** * C76 *)
Lemma image_bytes mem len : Forall byte mem -> Forall byte (image_of mem len).
Proof.
  intros H. unfold image_of. assert (G : Forall byte (mem ++ repeat 0 (Z.to_nat len - length mem))).
  { apply Forall_app. split; [exact H|]. apply Forall_forall. intros x Hx. apply repeat_spec in Hx. subst. unfold byte. lia. }
  rewrite <- (firstn_skipn (Z.to_nat len)) in G. now apply Forall_app in G as (G & _).
Qed.
Lemma image_length mem len : zlen (image_of mem len) = Z.max 0 len.
Proof. unfold image_of, zlen. rewrite firstn_length, app_length, repeat_length. lia. Qed.

(** What is in the file: the code, in the format the extension asks for; the code itself if the
    extension is unknown. *)
Definition written_as (C : cfg) (stem ext : text) (code out : list Z) : Prop :=
  match exporter_of ext formats with
  | Some x => exported C x stem code out
  | None => out = code
  end.

Lemma write_file_pad C mem len name s : 0 <= len ->
  write_file C mem len name s = write_file C (mem ++ repeat 0 (Z.to_nat len - length mem)) len name s.
Proof.
  intros H. unfold write_file.
  assert (E : image_of (mem ++ repeat 0 (Z.to_nat len - length mem)) len = image_of mem len).
  { unfold image_of at 1. rewrite app_length, repeat_length.
    replace (Z.to_nat len - (length mem + (Z.to_nat len - length mem)))%nat with O by lia. simpl. rewrite app_nil_r. reflexivity. }
  rewrite E. reflexivity.
Qed.
Lemma write_file_written C mem len stem ext s s' : stem <> [] -> ~ In 46 ext ->
  write_file C mem len (stem ++ 46 :: ext) s = Ok tt s' ->
  len <= OUTPUT_BUF_SIZE /\
  exists out, s_outfiles s' = (stem ++ 46 :: ext, out) :: s_outfiles s /\ written_as C stem ext (image_of mem len) out.
Proof.
  intros Hs He E.
  assert (L : len <= OUTPUT_BUF_SIZE).
  { destruct (OUTPUT_BUF_SIZE <? len) eqn:B; [|lia]. exfalso. revert E. unfold write_file. rewrite !bind_upd. rewrite B.
    destruct (file_ext _) as [e|]; [destruct (find_ext e extensions)|]; discriminate. }
  split; [exact L|]. unfold written_as. destruct (0 <=? len) eqn:B.
  - rewrite write_file_pad in E by lia.
    destruct (c31_format_by_extension C (mem ++ repeat 0 (Z.to_nat len - length mem)) len stem ext s) as (s2 & out & E2 & O & W); auto.
    { lia. } { unfold zlen. rewrite app_length, repeat_length. lia. }
    rewrite E in E2. injection E2 as <-. exists out. split; [exact O|].
    change (firstn (Z.to_nat len) (mem ++ repeat 0 (Z.to_nat len - length mem))) with (image_of mem len) in W.
    destruct (exporter_of ext formats); [exact W|apply W].
  - assert (E1 : file_ext (stem ++ 46 :: ext) = Some ext).
    { unfold file_ext. destruct stem as [|c stem]; [congruence|]. cbn [app tl]. now apply after_last_spec. }
    assert (E0 : image_of mem len = []). { unfold image_of. replace (Z.to_nat len) with O by lia. reflexivity. }
    revert E. unfold write_file. rewrite E1, E0, find_ext_spec, !bind_upd.
    replace (OUTPUT_BUF_SIZE <? len) with false by lia. replace (len <? 0) with true by lia.
    assert (R : forall x, exporter_of ext formats = Some x -> x = ExBinary \/ exporter_calc x <> TYPE_BIN).
    { unfold formats. cbn [exporter_of]. intros x.
      repeat match goal with |- context [if ?b then _ else _] => destruct b; [intros K; injection K as <-; first [left; reflexivity|right; discriminate]|] end.
      discriminate. }
    destruct (exporter_of ext formats) as [x|]; cbn [option_map].
    + rewrite bind_ret. destruct (R x eq_refl) as [->|N].
      * intros E. exists []. injection E as <-. split; [destruct s; reflexivity|reflexivity].
      * destruct (exporter_calc x); try discriminate. congruence.
    + intros E. exists []. injection E as <-. split; [destruct s; reflexivity|reflexivity].
Qed.

(** The state in which the output file is written does not depend on its name. *)
Definition listed (C : cfg) (n : nat) (s : st) : option st :=
  if c_symtable C then
    match (t <- get s_labels ;; d <- get s_defines ;; lab_defines (knot C n) d (lab_labels t))
          (set_sess (s_sess s + 1 + 1) (set_sess (s_sess s + 1) s)) with
    | Ok _ s' => Some s'
    | _ => None
    end
  else Some s.
Lemma part3_listed C n output s s' : part3 C n output s = Ok tt s' ->
  exists s1, listed C n s = Some s1 /\ s_mem s' = s_mem s1 /\ s_pos s' = s_pos s1.
Proof.
  unfold part3, listed. destruct (c_symtable C); cbn [whenM].
  2:{ intros E. injection E as <-. exists s. auto. }
  intros E. destruct (phase_split _ _ _ _ _ E) as (s1 & W & _ & M1 & P1 & _). rewrite M1, P1. clear E M1 P1.
  unfold write_labels in W. rewrite start_eq in W. rewrite !bind_get in *. simpl in W. simpl.
  apply bind_inv_ok in W as (l & s2 & E2 & W). rewrite E2. exists s2. split; [reflexivity|].
  apply bind_inv_ok in W as ([] & s3 & E3 & W). rewrite bind_get in W. injection W as <-.
  revert E3. unfold end_session, bind, get, upd, whenM, ret.
  repeat match goal with |- context [if ?b then _ else _] => destruct b end; intros E3; try discriminate E3; injection E3 as <-; split; reflexivity.
Qed.

Definition with_output (a : args) (o : text) : args :=
  mkargs (a_normal a) (a_list a) (a_counter a) (a_symtable a) (a_ez80 a) (a_case a) (a_input a) (Some o) (a_line a) (a_dirs a) (a_defs a).

(** A successful run: the code it makes is a function of everything but the output name, and
    the last file written is that code in the format asked for. *)
Definition run_code (C : cfg) (n : nat) (t : text) (s : st) : option (list Z) :=
  match part12 C n t s with
  | Ok _ s1 => match listed C n s1 with Some s2 => Some (image_of (s_mem s2) (s_pos s2)) | None => None end
  | _ => None
  end.
Lemma parts_code C n stem ext t s c s' : inv C s -> stem <> [] -> ~ In 46 ext -> c_normal C = true ->
  parts C n (stem ++ 46 :: ext) t s = Ok c s' ->
  exists code out l, run_code C n t s = Some code /\ s_outfiles s' = (stem ++ 46 :: ext, out) :: l /\
    written_as C stem ext code out /\ Forall byte code /\ zlen code <= OUTPUT_BUF_SIZE.
Proof.
  intros I0 Hs He Hn E. destruct (run_split _ _ _ _ _ _ _ E) as (s1 & s2 & s3 & E1 & E2 & E3 & E4).
  destruct (part3_listed _ _ _ _ _ E2) as (s1' & L & M & P).
  unfold part4 in E3. rewrite Hn in E3. cbn [whenM] in E3. destruct (phase_split _ _ _ _ _ E3) as (s4 & W & O & _).
  unfold export in W. rewrite !bind_get in W. apply write_file_written in W as (Lb & out & W1 & W2); auto.
  exists (image_of (s_mem s1') (s_pos s1')), out, (s_outfiles s2). unfold run_code. rewrite E1, L. split; [reflexivity|].
  simpl in W2, W1, Lb. rewrite M, P in *. split; [congruence|]. split; [exact W2|]. split.
  - apply image_bytes. rewrite <- M. pose proof (K_part12 C n t s) as R. rewrite E1 in R. destruct (R I0) as (I1 & _).
    pose proof (K_part3 C n (stem ++ 46 :: ext) s1) as R2. rewrite E2 in R2. destruct (R2 I1) as ((_ & _ & B) & _). exact B.
  - rewrite image_length. unfold OUTPUT_BUF_SIZE in *. lia.
Qed.

(** Two successful runs that differ only in the name of the output file make the same code: a
    list of bytes no longer than the output buffer; and each output file, the last file
    written, is this code in the format its name asks for. *)
Theorem c76_same_code fuel w argv1 argv2 a stem1 ext1 stem2 ext2 c1 c2 f1 f2 s1 s2 :
  read_args w args0 argv1 = AGo (with_output a (stem1 ++ 46 :: ext1)) ->
  read_args w args0 argv2 = AGo (with_output a (stem2 ++ 46 :: ext2)) ->
  a_normal a = true -> stem1 <> [] -> stem2 <> [] -> ~ In 46 ext1 -> ~ In 46 ext2 ->
  main fuel w argv1 = Done c1 f1 (Some s1) -> main fuel w argv2 = Done c2 f2 (Some s2) -> c1 <> 3 -> c2 <> 3 ->
  exists code b1 b2 l1 l2, f1 = l1 ++ [(stem1 ++ 46 :: ext1, b1)] /\ f2 = l2 ++ [(stem2 ++ 46 :: ext2, b2)] /\
    Forall (fun b => 0 <= b <= 255) code /\ zlen code <= 8000000 /\
    written_as (mkconf w a) stem1 ext1 code b1 /\ written_as (mkconf w a) stem2 ext2 code b2.
Proof.
  intros A1 A2 Hn S1 S2 X1 X2 H1 H2 N1 N2.
  assert (G : forall argv stem ext c f s, read_args w args0 argv = AGo (with_output a (stem ++ 46 :: ext)) -> stem <> [] -> ~ In 46 ext ->
    main fuel w argv = Done c f (Some s) -> c <> 3 ->
    exists input t, a_input a = Some input /\
      (match (match a_line a with Some t => Some t | None => match w_files w input with Some b => get_file_contents b | None => None end end) with
       | Some t => Some (until_nul t) | None => None end) = Some t /\
    exists code out l, run_code (mkconf w a) fuel t (set_incdirs (c_cwd (mkconf w a) :: a_dirs a) (reset_run (init_state (a_ez80 a) input (a_dirs a)
      (match a_defs a with Some d => d | None => init_defines input end)))) = Some code /\
      f = l ++ [(stem ++ 46 :: ext, out)] /\ written_as (mkconf w a) stem ext code out /\ Forall byte code /\ zlen code <= OUTPUT_BUF_SIZE).
  { clear - Hn. intros argv stem ext c f s Ha Hs He H Hc. unfold main in H. destruct argv as [|x argv]; [discriminate|].
    rewrite Ha in H. cbn [with_output a_input a_output a_defs a_ez80 a_dirs a_line] in H.
    destruct (a_input a) as [input|] eqn:Ei; [|discriminate]. exists input.
    change (mkconf w (with_output a (stem ++ 46 :: ext))) with (mkconf w a) in H. cbv zeta in H. rewrite run_parts in H. cbv zeta in H.
    set (s0 := reset_run _) in *. change (s_file s0) with input in H. change (c_files (mkconf w a)) with (w_files w) in H. change (s_incdirs s0) with (a_dirs a) in H.
    destruct (match a_line a with Some t => Some t | None => _ end) as [t|].
    2:{ injection H as <- _. exfalso. now apply Hc. }
    exists (until_nul t). split; [reflexivity|]. split; [reflexivity|].
    set (s1 := set_incdirs _ s0) in *. assert (I0 : inv (mkconf w a) s1) by (repeat constructor).
    destruct (parts (mkconf w a) fuel (stem ++ 46 :: ext) (until_nul t) s1) as [c' s'|c' s'| |] eqn:E; try discriminate; injection H as <- <- <-.
    - destruct (parts_code _ _ _ _ _ _ _ _ I0 Hs He Hn E) as (code & out & l & P1 & P2 & P3 & P4 & P5).
      exists code, out, (rev l). split; [exact P1|]. split; [rewrite P2; reflexivity|]. auto.
    - apply parts_exit in E; auto; [|intros (e & K & _); exact K]. exfalso. apply Hc, E. }
  destruct (G _ _ _ _ _ _ A1 S1 X1 H1 N1) as (i1 & t1 & I1 & T1 & code & b1 & l1 & R1 & F1 & W1 & B & L).
  destruct (G _ _ _ _ _ _ A2 S2 X2 H2 N2) as (i2 & t2 & I2 & T2 & code2 & b2 & l2 & R2 & F2 & W2 & _ & _).
  assert (i2 = i1) as -> by congruence. assert (t2 = t1) as -> by congruence. assert (code2 = code) as -> by congruence.
  exists code, b1, b2, l1, l2. auto 10.
Qed.
Print Assumptions c76_same_code.

Lemma base_name_in s c : In c (base_name s) -> In c s.
Proof.
  unfold base_name. assert (G : forall s r, after_last_slash s = Some r -> forall c, In c r -> In c s).
  { clear. induction s as [|x s IH]; simpl; [discriminate|]. intros r. destruct (after_last_slash s) as [r'|].
    - intros E c Hc. injection E as <-. right. eauto.
    - destruct ((x =? 47) || (x =? 92)); [|discriminate]. intros E c Hc. injection E as <-. now right. }
  destruct (after_last_slash (tl s)) eqn:E; [|auto]. intros Hc. destruct s; [discriminate E|]. right. exact (G _ _ E _ Hc).
Qed.
Lemma alphanumeric_no_zero s : forall f a, Forall (fun c => c <> 0) s -> Forall (fun c => c <> 0) (fst (alphanumeric f a s)).
Proof.
  induction s as [|c s IH]; intros f a H; [constructor|]. inversion H as [|? ? H1 H2]; subst. cbn [alphanumeric].
  specialize (IH (f && negb a) a H2). destruct (alphanumeric (f && negb a) a s) as [t k]. cbn [fst] in *. constructor; [|exact IH].
  destruct (f && islower c) eqn:E; [|exact H1]. apply andb_prop in E as (_ & E). unfold islower in E. lia.
Qed.
Lemma name_no_zero calc stem : Forall (fun c => c <> 0) stem -> Forall (fun c => c <> 0) (prgm_name calc stem).
Proof.
  intros H. unfold prgm_name. destruct (is_82P calc).
  - constructor; [discriminate|]. rewrite <- (firstn_skipn 254) in H. now apply Forall_app in H.
  - assert (B : Forall (fun c => c <> 0) (base_name stem)).
    { rewrite Forall_forall in *. intros c Hc. apply H, base_name_in, Hc. }
    destruct (before_85P calc); [now apply alphanumeric_no_zero|exact B].
Qed.

(** So a reader of the other formats gets exactly the bytes of the binary file of the same
    program: Intel HEX (checked record by record up to 4 MiB), ROM image, variable. *)
Theorem c76_formats fuel w argv1 argv2 a stem1 ext1 stem2 ext2 x c1 c2 f1 f2 s1 s2 :
  read_args w args0 argv1 = AGo (with_output a (stem1 ++ 46 :: ext1)) ->
  read_args w args0 argv2 = AGo (with_output a (stem2 ++ 46 :: ext2)) ->
  a_normal a = true -> stem1 <> [] -> stem2 <> [] -> ~ In 46 ext1 -> ~ In 46 ext2 ->
  exporter_of ext1 formats = Some ExBinary -> exporter_of ext2 formats = Some x ->
  main fuel w argv1 = Done c1 f1 (Some s1) -> main fuel w argv2 = Done c2 f2 (Some s2) -> c1 <> 3 -> c2 <> 3 ->
  exists bin other l1 l2, f1 = l1 ++ [(stem1 ++ 46 :: ext1, bin)] /\ f2 = l2 ++ [(stem2 ++ 46 :: ext2, other)] /\
    match x with
    | ExBinary => other = bin
    | ExRom => firstn (length bin) other = bin /\ zlen other = Z.max 524288 (zlen bin) /\ Forall (fun b => b = 255) (skipn (length bin) other)
    | ExHex => decode_hex false other = Some (image bin) /\ (zlen bin <= 4194304 -> decode_hex true other = Some (image bin))
    | ExApp => True
    | ExVariable k =>
        In k [0; 3; 4]%nat -> Forall (fun c => c <> 0) stem2 -> zlen bin <= 65000 ->
        exists name, read_var false other = Some (mkvar (if Nat.eqb k 4 then 21 else 6) name bin)
    end.
Proof.
  intros A1 A2 Hn S1 S2 X1 X2 E1 E2 H1 H2 N1 N2.
  destruct (c76_same_code _ _ _ _ _ _ _ _ _ _ _ _ _ _ _ A1 A2 Hn S1 S2 X1 X2 H1 H2 N1 N2) as (code & b1 & b2 & l1 & l2 & F1 & F2 & B & L & W1 & W2).
  unfold written_as in W1, W2. rewrite E1 in W1. rewrite E2 in W2. cbn [exported] in W1. subst b1.
  exists code, b2, l1, l2. split; [exact F1|]. split; [exact F2|].
  assert (By : bytes code). { eapply Forall_impl; [|exact B]. intros b Hb. cbv beta in Hb. unfold is_byte. lia. }
  destruct x as [| | | |k]; cbn [exported] in W2.
  - exact W2.
  - subst b2. apply c27_rom_image.
  - subst b2. split; [apply c25_ihex_lossless; [exact By|lia]|]. intros Hl. apply c26_ihex_checksums_partial; [exact By|lia].
  - exact I.
  - intros Hk Hz Hl. subst b2. set (calc := exporter_calc (ExVariable k)).
    assert (P : padded calc = true /\ is_sized calc = false /\ var_kind calc = (if Nat.eqb k 4 then 21 else 6) /\ prgm_prefix calc = [] /\ prgm_body calc code = code /\ calc <> TYPE_86P).
    { destruct Hk as [<-|[<-|[<-|[]]]]; repeat split; discriminate. }
    destruct P as (P1 & P2 & P3 & P4 & P5 & P6).
    pose proof (c28_read_back calc stem2 code By P1) as R. rewrite P2, P3, P4, P5 in R. eexists. apply R.
    + now apply name_no_zero.
    + congruence.
    + destruct (makeprgm_shape calc stem2 code) as (hdr & Lh & ->); [destruct Hk as [<-|[<-|[<-|[]]]]; reflexivity|].
      unfold zlen. rewrite !app_length, Lh. cbn [le2 length].
      assert (Ls : zlen (sect calc stem2 code) = len_field calc stem2 code).
      { rewrite sect_length; [|exact By|destruct Hk as [<-|[<-|[<-|[]]]]; reflexivity]. destruct Hk as [<-|[<-|[<-|[]]]]; reflexivity. }
      assert (Lf : len_field calc stem2 code <= 65100).
      { destruct Hk as [<-|[<-|[<-|[]]]]; unfold calc, len_field, prgm_size, prgm_size0; cbn [exporter_calc nth is_83P is_82P is_86P is_85P is_8XP is_8XV orb]; lia. }
      unfold zlen in Ls. lia.
Qed.
Print Assumptions c76_formats.

(** The hypotheses are met: the same program in four formats. *)
Definition last_of (o : outcome) : option (Z * text * list Z) :=
  match o with Done c f (Some s) => match rev f with (n, b) :: _ => Some (c, n, b) | [] => None end | _ => None end.
Definition run_to (out : string) : option (Z * text * list Z) :=
  last_of (main 60 (world_of [(zs "a.asm", two_labels)]) [zs "a.asm"; zs out]).
Definition some_args : args := mkargs true false false false false false (Some (zs "a.asm")) None None [] None.
Example c76_case :
  read_args (world_of [(zs "a.asm", two_labels)]) args0 [zs "a.asm"; zs "a.bin"] = AGo (with_output some_args (zs "a" ++ 46 :: zs "bin")) /\
  read_args (world_of [(zs "a.asm", two_labels)]) args0 [zs "a.asm"; zs "b.hex"] = AGo (with_output some_args (zs "b" ++ 46 :: zs "hex")) /\
  run_to "a.bin" = Some (0, zs "a.bin", [62; 1; 6; 2; 195; 0; 0]) /\
  run_to "b.hex" = Some (0, zs "b.hex", zs ":020000020000FC" ++ crlf ++ zs ":074000003E010602C30000AF" ++ crlf ++ zs ":00000001FF") /\
  match run_to "c.8xp" with Some (c, _, b) => c = 1 /\ read_var false b = Some (mkvar 6 (zs "C") [62; 1; 6; 2; 195; 0; 0]) | None => False end.
Proof.
  split; [|split; [|split; [|split]]]; vm_compute; try reflexivity. split; reflexivity.
Qed.
