(** Programs in several files (C53, C54). *)
From Verif Require Import Base BaseProofs State MonadProofs StorageModel ErrorsModel ParserModel PreopModel PassOneModel OpcodeTables MainModel FuelProofs UtilsModel UtilsSpec UtilsProofs
  StorageSpec StorageProofs ParserSpec ParserProofs Knot ExportModel ExportSpec InstrSpec MatchSpec MatchProofs MatchProps AsmSpec AsmExpand AsmProofs AsmLine AsmRun AsmProps
  CondSpec CondSkip CondExt CondRun CondProps MacroSpec MacroRun MacroDefs MacroProps.
From Verif Require IncludeProps BitmapRun PassTwoSpec.
#[local] Existing Instance no_params.
#[local] Existing Instance no_frame.
#[local] Existing Instance no_consts.

(** ** Deeper nesting does the same *)
Record under_at {P : Params} (a b : Calls) : Prop := mkunder {
  un_after : forall now here y r, call_after (Calls := a) params now here y = Some r -> call_after (Calls := b) params now here y = Some r;
  un_bytes : forall t now here y r, call_bytes (Calls := a) params t now here y = Some r -> call_bytes (Calls := b) params t now here y = Some r;
  un_ok : forall now here y, call_ok (Calls := a) params now here y -> call_ok (Calls := b) params now here y;
  un_pafter : forall now here z r, paste_after (Calls := a) params now here z = Some r -> paste_after (Calls := b) params now here z = Some r;
  un_pbytes : forall t now here z r, paste_bytes (Calls := a) params t now here z = Some r -> paste_bytes (Calls := b) params t now here z = Some r;
  un_pok : forall now here z, paste_ok (Calls := a) params now here z -> paste_ok (Calls := b) params now here z }.
Section Under.
Context {Pm : Params} {Ca : Calls}.
Variable Ca' : Calls.
Variable wraps ez80 : bool.
Variable fold : text -> text.
Variable ops : list opcode.
Variable tk : text -> bool.
Hypothesis under : under_at Ca Ca'.
Lemma after_under now here x r : after (Ca := Ca) wraps ez80 fold tk now here x = Some r -> after (Ca := Ca') wraps ez80 fold tk now here x = Some r.
Proof.
  unfold after. destruct (with_label fold tk now here x) as [n|]; [|auto]. destruct (x_stmt x); auto.
  - destruct (call_after (Calls := Ca) params n here y) as [(a, b)|] eqn:E; [|discriminate]. now rewrite (un_after _ _ under _ _ _ _ E).
  - destruct (paste_after (Calls := Ca) params n here z) as [(a, b)|] eqn:E; [|discriminate]. now rewrite (un_pafter _ _ under _ _ _ _ E).
Qed.
Lemma emits_under t now here x r : emits (Ca := Ca) wraps ez80 fold tk t now here x = Some r -> emits (Ca := Ca') wraps ez80 fold tk t now here x = Some r.
Proof.
  unfold emits. destruct (x_stmt x); auto; (destruct (with_label fold tk now here x); [|discriminate]); [apply (un_bytes _ _ under)|apply (un_pbytes _ _ under)].
Qed.
Lemma reached_under l : forall now here r, reached (Ca := Ca) wraps ez80 fold tk now here l = Some r -> reached (Ca := Ca') wraps ez80 fold tk now here l = Some r.
Proof. induction l as [|x l IH]; intros now here r; [auto|]. cbn [reached]. destruct (after (Ca := Ca) _ _ _ _ now here x) as [(a, b)|] eqn:E; [|discriminate]. rewrite (after_under _ _ _ _ E). apply IH. Qed.
Lemma output_under t l : forall now here r, output (Ca := Ca) wraps ez80 fold tk t now here l = Some r -> output (Ca := Ca') wraps ez80 fold tk t now here l = Some r.
Proof.
  induction l as [|x l IH]; intros now here r; [auto|]. cbn [output]. destruct (emits (Ca := Ca) _ _ _ _ t now here x) as [e|] eqn:Em; [|discriminate]. rewrite (emits_under _ _ _ _ _ Em).
  destruct (after (Ca := Ca) _ _ _ _ now here x) as [(a, b)|] eqn:E; [|discriminate]. rewrite (after_under _ _ _ _ E). destruct (output (Ca := Ca) _ _ _ _ t a b l) as [o|] eqn:Eo; [|discriminate]. now rewrite (IH _ _ _ Eo).
Qed.
Lemma sections_ok_under l : forall now here, sections_ok (Ca := Ca) wraps ez80 fold tk ops now here l -> sections_ok (Ca := Ca') wraps ez80 fold tk ops now here l.
Proof.
  induction l as [|x l IH]; intros now here; [auto|]. cbn [sections_ok]. intros (H & L). split.
  - unfold section_ok in *. destruct H as (H1 & H2 & H3). split; [exact H1|]. split; [exact H2|]. destruct (with_label fold tk now here x) as [n|]; [|exact H3].
    destruct (x_stmt x); try exact H3; [exact (un_ok _ _ under _ _ _ H3)|exact (un_pok _ _ under _ _ _ H3)].
  - destruct (after (Ca := Ca) _ _ _ _ now here x) as [(a, b)|] eqn:E; [|contradiction]. rewrite (after_under _ _ _ _ E). now apply IH.
Qed.
Lemma chosen_under : (forall b now here r, chosen (Ca := Ca) wraps ez80 fold tk now here b = Some r -> chosen (Ca := Ca') wraps ez80 fold tk now here b = Some r) /\
  (forall a now here r, chosen_alt (Ca := Ca) wraps ez80 fold tk now here a = Some r -> chosen_alt (Ca := Ca') wraps ez80 fold tk now here a = Some r).
Proof.
  assert (At : forall x y f g r, (forall v, x = Some v -> y = Some v) -> (forall a b v, f a b = Some v -> g a b = Some v) -> and_then x f = Some r -> and_then y g = Some r).
  { intros [(p, (a, b))|] y f g r H1 H2; [|discriminate]. rewrite (H1 _ eq_refl). cbn. destruct (f a b) as [(q, v)|] eqn:E; [|discriminate]. now rewrite (H2 _ _ _ E). }
  apply blocks_alt_ind.
  - auto.
  - intros l b IH now here r. cbn [chosen]. destruct (reached (Ca := Ca) _ _ _ _ now here (sections [l])) as [v|] eqn:E; [|discriminate]. rewrite (reached_under _ _ _ _ E). apply At; auto.
  - discriminate.
  - intros h yes IHy no IHn b IH now here r. cbn [chosen]. destruct (holds _ _ tk now here (h_test h)) as [[|]|]; [apply At; auto|apply At; auto|discriminate].
  - auto.
  - intros m no IH e now here r. apply IH.
  - intros h yes IHy no IHn now here r. cbn [chosen_alt]. destruct (holds _ _ tk now here (h_test h)) as [[|]|]; auto.
Qed.
End Under.
Section Depth.
Variable wraps ez80 : bool.
Variable fold : text -> text.
Variable tk : text -> bool.
Variable ops : list opcode.
Variable macros : list macro.
Variable constants : Params.
Variable file : text -> option (list Z).
Variable search : list text.
Variable sources : list (text * blocks).
Notation calls := (calls wraps ez80 fold tk ops macros constants file search sources).
Lemma calls_under d : forall P, @under_at P (calls d) (calls (S d)).
Proof.
  induction d as [|d IH]; intros P; [constructor; cbn; intros; try discriminate; contradiction|].
  assert (Ex : forall P' now here q r, expanded wraps ez80 fold tk (calls d) P' now here q = Some r -> expanded wraps ez80 fold tk (calls (S d)) P' now here q = Some r).
  { intros P' now here q r. unfold expanded. apply (proj1 (chosen_under (Pm := P') (Ca := calls d) (calls (S d)) wraps ez80 fold tk (IH P'))). }
  assert (Pa : forall P' now here z r, pasted wraps ez80 fold tk file search sources (calls d) P' now here z = Some r -> pasted wraps ez80 fold tk file search sources (calls (S d)) P' now here z = Some r).
  { intros P' now here z r. unfold pasted. destruct (source _ _ _ z) as [b|]; [|auto]. apply (proj1 (chosen_under (Pm := P') (Ca := calls d) (calls (S d)) wraps ez80 fold tk (IH P'))). }
  change (@under_at P (mkcalls (step_after wraps ez80 fold tk macros (calls d)) (step_bytes wraps ez80 fold tk macros (calls d)) (step_ok wraps ez80 fold tk ops macros constants (calls d))
      (pasted_after wraps ez80 fold tk file search sources (calls d)) (pasted_bytes wraps ez80 fold tk file search sources (calls d)) (pasted_ok wraps ez80 fold tk ops file search sources (calls d)))
    (mkcalls (step_after wraps ez80 fold tk macros (calls (S d))) (step_bytes wraps ez80 fold tk macros (calls (S d))) (step_ok wraps ez80 fold tk ops macros constants (calls (S d)))
      (pasted_after wraps ez80 fold tk file search sources (calls (S d))) (pasted_bytes wraps ez80 fold tk file search sources (calls (S d))) (pasted_ok wraps ez80 fold tk ops file search sources (calls (S d))))).
  set (c0 := calls d) in *. set (c1 := calls (S d)) in *. clearbody c0 c1.
  constructor; cbn [call_after call_bytes call_ok paste_after paste_bytes paste_ok].
  - intros now here y r. unfold step_after. destruct (expansion _ _ _ _ now here y) as [(q, P')|]; [|auto].
    destruct (expanded _ _ _ _ c0 P' now here q) as [(p, v)|] eqn:E; [|discriminate]. now rewrite (Ex _ _ _ _ _ E).
  - intros t now here y r. unfold step_bytes. destruct (expansion _ _ _ _ now here y) as [(q, P')|]; [|auto].
    destruct (expanded _ _ _ _ c0 P' now here q) as [(p, v)|] eqn:E; [|discriminate]. rewrite (Ex _ _ _ _ _ E). apply (output_under (Pm := P') (Ca := c0) c1 wraps ez80 fold tk (IH P')).
  - intros now here y. unfold step_ok. intros (H1 & H2 & H3 & H4 & H5 & H6). do 5 (split; [assumption|]). destruct (expansion _ _ _ _ now here y) as [(q, P')|]; [|exact H6].
    destruct H6 as (H6 & Hc & H7). split; [exact H6|]. split; [exact Hc|]. destruct (expanded _ _ _ _ c0 P' now here q) as [(p, v)|] eqn:E; [|contradiction]. rewrite (Ex _ _ _ _ _ E). destruct H7 as (H7 & H8). split; [exact H7|].
    now apply (sections_ok_under (Pm := P') (Ca := c0) c1 wraps ez80 fold ops tk (IH P')).
  - intros now here z r. unfold pasted_after. destruct (is_import z); [auto|]. destruct (pasted _ _ _ _ _ _ _ c0 _ now here z) as [(p, v)|] eqn:E; [|discriminate]. now rewrite (Pa _ _ _ _ _ E).
  - intros t now here z r. unfold pasted_bytes. destruct (is_import z); [auto|]. destruct (pasted _ _ _ _ _ _ _ c0 _ now here z) as [(p, v)|] eqn:E; [|discriminate]. rewrite (Pa _ _ _ _ _ E).
    apply (output_under (Pm := P) (Ca := c0) c1 wraps ez80 fold tk (IH P)).
  - intros now here z. unfold pasted_ok. intros (H1 & H2 & H3 & H4 & H5 & H6). do 5 (split; [assumption|]). destruct (is_import z); [exact H6|]. destruct (source _ _ _ z) as [b|]; [|exact H6].
    destruct (pasted _ _ _ _ _ _ _ c0 _ now here z) as [(p, v)|] eqn:E; [|contradiction]. rewrite (Pa _ _ _ _ _ E). destruct H6 as (H7 & H8). split; [exact H7|].
    now apply (sections_ok_under (Pm := P) (Ca := c0) c1 wraps ez80 fold ops tk (IH P)).
Qed.
End Depth.

(** ** A file in the place of the line that includes it *)
Fixpoint join (a b : blocks) : blocks :=
  match a with
  | Nil => b
  | Line l m => Line l (join m b)
  | Other t cr m => Other t cr (join m b)
  | Cond h yes no m => Cond h yes no (join m b)
  end.
Lemma join_text a b : blocks_text (join a b) = blocks_text a ++ blocks_text b.
Proof. induction a as [|l m IH|t cr m IH|h yes IHy no m IH]; cbn [join blocks_text]; [reflexivity|now rewrite IH, app_assoc|rewrite IH, !app_assoc; reflexivity|rewrite IH, !app_assoc; reflexivity]. Qed.
Section Join.
Context {Pm : Params} {Ca : Calls}.
Variable wraps ez80 : bool.
Variable fold : text -> text.
Variable tk : text -> bool.
Variable ops : list opcode.
Notation chosen := (chosen wraps ez80 fold tk).
Notation reached := (reached wraps ez80 fold tk).
Notation output := (output wraps ez80 fold tk).
Notation sections_ok := (sections_ok wraps ez80 fold tk ops).
Lemma and_then_assoc x f g : and_then (and_then x f) g = and_then x (fun a b => and_then (f a b) g).
Proof. destruct x as [(p, (a, b))|]; [|reflexivity]. cbn. destruct (f a b) as [(q, (c, d))|]; [|reflexivity]. cbn. destruct (g c d) as [(r, v)|]; [|reflexivity]. now rewrite app_assoc. Qed.
Lemma chosen_join a b : forall now here, chosen now here (join a b) = and_then (chosen now here a) (fun now here => chosen now here b).
Proof.
  induction a as [|l m IH|t cr m IH|h yes IHy no m IH]; intros now here; cbn [join CondSpec.chosen].
  - cbn. destruct (chosen now here b) as [(q, r)|]; reflexivity.
  - destruct (reached now here (sections [l])) as [r|]; [|reflexivity]. rewrite and_then_assoc. apply and_then_same. exact IH.
  - reflexivity.
  - destruct (holds wraps fold tk now here (h_test h)) as [[|]|]; [| |reflexivity]; rewrite and_then_assoc; apply and_then_same; exact IH.
Qed.
Lemma reached_app a b : forall now here, reached now here (a ++ b) = match reached now here a with Some (n, h) => reached n h b | None => None end.
Proof. induction a as [|x a IH]; intros now here; [reflexivity|]. cbn [app AsmSpec.reached]. destruct (after _ _ _ _ now here x) as [(n, h)|]; [apply IH|reflexivity]. Qed.
Lemma chosen_reached : (forall b now here p r, chosen now here b = Some (p, r) -> reached now here (sections p) = Some r) /\
  (forall a now here p r, chosen_alt wraps ez80 fold tk now here a = Some (p, r) -> reached now here (sections p) = Some r).
Proof.
  assert (At : forall now here x f p r, (forall p r, x = Some (p, r) -> reached now here (sections p) = Some r) -> (forall n h p r, f n h = Some (p, r) -> reached n h (sections p) = Some r) ->
    and_then x f = Some (p, r) -> reached now here (sections p) = Some r).
  { intros now here [(p1, (n, h))|] f p r H1 H2; [|discriminate]. cbn. destruct (f n h) as [(p2, v)|] eqn:E; [|discriminate]. intros [= <- <-]. unfold sections in *. rewrite flat_map_app, reached_app, (H1 _ _ eq_refl). now apply H2. }
  apply blocks_alt_ind.
  - intros now here p r [= <- <-]. reflexivity.
  - intros l b IH now here p r. cbn [CondSpec.chosen]. destruct (reached now here (sections [l])) as [v|] eqn:E; [|discriminate]. apply At; [intros p0 r0 [= <- <-]; exact E|exact IH].
  - discriminate.
  - intros h yes IHy no IHn b IH now here p r. cbn [CondSpec.chosen]. destruct (holds _ _ tk now here (h_test h)) as [[|]|]; [apply At; [apply IHy|exact IH]|apply At; [apply IHn|exact IH]|discriminate].
  - intros m now here p r [= <- <-]. reflexivity.
  - intros m no IH e now here p r. apply IH.
  - intros h yes IHy no IHn now here p r. cbn [chosen_alt]. destruct (holds _ _ tk now here (h_test h)) as [[|]|]; auto. discriminate.
Qed.
Lemma sections_ok_app a b : forall now here, sections_ok now here (a ++ b) <-> sections_ok now here a /\ match reached now here a with Some (n, h) => sections_ok n h b | None => False end.
Proof.
  induction a as [|x a IH]; intros now here; [cbn; tauto|]. cbn [app AsmSpec.sections_ok AsmSpec.reached]. destruct (after _ _ _ _ now here x) as [(n, h)|]; [|tauto]. rewrite IH. tauto.
Qed.
Lemma output_app t a b : forall now here, output t now here (a ++ b) =
  match output t now here a, reached now here a with Some u, Some (n, h) => match output t n h b with Some v => Some (u ++ v) | None => None end | _, _ => None end.
Proof.
  induction a as [|x a IH]; intros now here; [cbn; destruct (output t now here b); reflexivity|]. cbn [app AsmSpec.output AsmSpec.reached].
  destruct (emits _ _ _ _ t now here x) as [e|]; [|reflexivity]. destruct (after _ _ _ _ now here x) as [(n, h)|]; [|reflexivity]. rewrite IH. destruct (output t n h a) as [u|]; [|reflexivity].
  destruct (reached n h a) as [(n1, h1)|]; [|reflexivity]. destruct (output t n1 h1 b); [now rewrite app_assoc|reflexivity].
Qed.
Lemma symbols_reached l : forall now here, symbols wraps ez80 fold tk now here l = option_map fst (reached now here l).
Proof. induction l as [|x l IH]; intros now here; [reflexivity|]. cbn [symbols AsmSpec.reached]. destruct (after _ _ _ _ now here x) as [(n, h)|]; [apply IH|reflexivity]. Qed.
Lemma blocks_ok_join i a b : blocks_ok fold tk i (join a b) <-> blocks_ok fold tk i a /\ blocks_ok fold tk i b.
Proof. induction a as [|l m IH|t cr m IH|h yes IHy no m IH]; cbn [join blocks_ok]; [tauto|rewrite IH; tauto..]. Qed.
End Join.

(** A line with nothing but the inclusion of a file. *)
Definition include_line (l : line) (z : paste) : Prop :=
  l_more l = [] /\ x_label (l_first l) = None /\ x_stmt (l_first l) = SPaste z /\ is_import z = false.

Lemma in_place w search defs ez80 case os hs ks srcs depth b1 l z sb b2 p r bts : include_line l z -> source (w_files w) search srcs z = Some sb ->
  macro_program w search defs ez80 case os hs ks srcs (S depth) (join b1 (Line l b2)) p r bts ->
  exists p', macro_program w search defs ez80 case os hs ks srcs (S depth) (join b1 (join sb b2)) p' r bts.
Proof.
  intros (Lm & Ll & Ls & Im) So0 [(Z0 & Ne & Nb) Mo Oset Vk Sr Bo Ch So As].
  assert (Sx : sections [l] = [l_first l]) by (unfold sections; cbn [flat_map]; now rewrite Lm).
  set (tk := known_names case defs hs) in *. set (Ca := macro_calls w search defs ez80 case hs ks srcs (S depth)) in *. set (Cd := macro_calls w search defs ez80 case hs ks srcs depth).
  pose proof (calls_under (w_wrap w) ez80 (fold_name case) tk (instructions ez80) (header_macros hs) ks (w_files w) search srcs depth ks) as Un. fold Ca Cd in Un.
  change (@under_at ks Cd Ca) in Un.
  rewrite chosen_join in Ch. destruct (chosen _ _ _ _ [] 0 b1) as [(p1, (n1, h1))|] eqn:C1; [|discriminate]. cbn [and_then] in Ch.
  destruct (chosen _ _ _ _ n1 h1 (Line l b2)) as [(p23, r0)|] eqn:C2; [|discriminate]. injection Ch as <- ->. cbn [chosen] in C2.
  destruct (reached _ _ _ _ n1 h1 (sections [l])) as [(n2, h2)|] eqn:Rl; [|discriminate]. cbn [and_then] in C2. destruct (chosen _ _ _ _ n2 h2 b2) as [(p2, r1)|] eqn:C3; [|discriminate]. injection C2 as <- ->.
  apply blocks_ok_join in Bo as (Bo1 & Bo2). cbn [blocks_ok] in Bo2. destruct Bo2 as (_ & _ & Bo2).
  pose proof (proj1 (chosen_reached (Pm := ks) _ _ _ _) _ _ _ _ _ C1) as R1. pose proof (proj1 (chosen_reached (Pm := ks) _ _ _ _) _ _ _ _ _ C3) as R3.
  assert (Es : sections (p1 ++ [l] ++ p2) = sections p1 ++ sections [l] ++ sections p2) by (unfold sections; now rewrite !flat_map_app).
  change (p1 ++ l :: p2) with (p1 ++ [l] ++ p2) in *. rewrite Es in So. apply sections_ok_app in So as (So1 & So). rewrite R1 in So. apply sections_ok_app in So as (Sol & So2). rewrite Rl in So2.
  rewrite Sx in Rl, Sol. cbn [reached] in Rl. cbn [sections_ok] in Sol. destruct Sol as (Sol & _). unfold section_ok in Sol. unfold after in Rl.
  assert (Wl : with_label (fold_name case) tk n1 h1 (l_first l) = Some n1) by (unfold with_label; now rewrite Ll). rewrite Wl, Ls in *. destruct Sol as (_ & _ & Sol).
  destruct (paste_after (@params ks) n1 h1 z) as [(n2', h2')|] eqn:Pf; [|discriminate]. assert (E2 : small h2' = true /\ n2' = n2 /\ h2' = h2) by (destruct (small h2'); [injection Rl as -> ->; auto|discriminate]). destruct E2 as (Sm & -> & ->). clear Rl.
  cbn [stmt_ok] in Sol. change (pasted_ok (w_wrap w) ez80 (fold_name case) tk (instructions ez80) (w_files w) search srcs Cd ks n1 h1 z) in Sol. change (pasted_after (w_wrap w) ez80 (fold_name case) tk (w_files w) search srcs Cd ks n1 h1 z = Some (n2, h2)) in Pf.
  unfold pasted_ok in Sol. unfold pasted_after in Pf. rewrite Im in *. destruct Sol as (_ & _ & _ & _ & _ & Sol). rewrite So0 in Sol. destruct (pasted _ _ _ _ _ _ _ _ _ n1 h1 z) as [(ps, r2)|] eqn:Pz; [|discriminate]. injection Pf as ->. destruct Sol as (Bos & Sos).
  pose proof Pz as Pz'. unfold pasted in Pz'. rewrite So0 in Pz'.
  pose proof (proj1 (chosen_under (Pm := ks) (Ca := Cd) Ca (w_wrap w) ez80 (fold_name case) tk Un) _ _ _ _ Pz') as Cs. pose proof (proj1 (chosen_reached (Pm := ks) _ _ _ _) _ _ _ _ _ Cs) as Rs.
  apply (sections_ok_under (Pm := ks) (Ca := Cd) Ca (w_wrap w) ez80 (fold_name case) (instructions ez80) tk Un) in Sos.
  assert (Es' : sections (p1 ++ ps ++ p2) = sections p1 ++ sections ps ++ sections p2) by (unfold sections; now rewrite !flat_map_app).
  unfold source in So0. destruct (located _ _ (z_name z)) as [f|]; [|discriminate]. match type of So0 with match ?x with _ => _ end = _ => destruct x as [(f0, sb0)|] eqn:Fi end; [|discriminate]. injection So0 as ->.
  apply find_some in Fi as (Is & _). pose proof Sr as Sr'. unfold sources_ok in Sr'. rewrite Forall_forall in Sr'. destruct (Sr' _ Is) as (_ & Nz & Hh). cbn [fst snd] in Nz, Hh.
  exists (p1 ++ ps ++ p2). constructor; auto.
  - rewrite !join_text in *. cbn [blocks_text] in *. apply Forall_app in Z0 as (Z1 & Z2). apply Forall_app in Z2 as (Z2 & Z3). apply Forall_app in Z3 as (_ & Z3). split; [|split].
    + apply Forall_app. split; [exact Z1|]. apply Forall_app. split; [exact Z2|]. apply Forall_app. split; [exact Nz|exact Z3].
    + destruct (header_text hs); [|discriminate]. destruct (blocks_text b1); [|discriminate]. destruct (blocks_text sb); [contradiction|discriminate].
    + destruct (header_text hs); [|exact Nb]. destruct (blocks_text b1); [|exact Nb]. cbn [app] in *. destruct (blocks_text sb); [contradiction|]. cbn [app hd0]. tauto.
  - apply blocks_ok_join. split; [exact Bo1|]. apply blocks_ok_join. auto.
  - rewrite chosen_join. fold tk Ca. rewrite C1. cbn [and_then]. rewrite chosen_join, Cs. cbn [and_then]. now rewrite C3.
  - fold tk Ca. rewrite Es'. apply sections_ok_app. split; [exact So1|]. rewrite R1. apply sections_ok_app. split; [exact Sos|]. now rewrite Rs.
  - fold tk Ca. unfold assemble in *. rewrite symbols_reached in *. rewrite Es in As. rewrite Es'. rewrite !reached_app, R1 in *. rewrite !reached_app in *. rewrite Rs, R3.
    assert (Rl : reached (P := ks) (Ca := Ca) (w_wrap w) ez80 (fold_name case) tk n1 h1 (sections [l]) = Some (n2, h2)).
    { rewrite Sx. cbn [reached]. unfold after. rewrite Wl, Ls. change (paste_after (@params ks) n1 h1 z) with (pasted_after (w_wrap w) ez80 (fold_name case) tk (w_files w) search srcs Cd ks n1 h1 z). unfold pasted_after. now rewrite Im, Pz, Sm. }
    rewrite Rl, R3 in As. cbn [option_map] in *. rewrite !output_app, R1 in *. rewrite !output_app, Rs. rewrite !output_app, Rl in As.
    destruct (output _ _ _ _ _ [] 0 (sections p1)) as [o1|]; [|discriminate]. rewrite Sx in As. cbn [output] in As. unfold emits in As. rewrite Ls, Wl in As.
    change (paste_bytes (@params ks) (fst r) n1 h1 z) with (pasted_bytes (w_wrap w) ez80 (fold_name case) tk (w_files w) search srcs Cd ks (fst r) n1 h1 z) in As. unfold pasted_bytes in As. rewrite Im, Pz in As.
    destruct (output _ _ _ _ (fst r) n1 h1 (sections ps)) as [osb|] eqn:Os; [|discriminate]. rewrite (output_under (Pm := ks) (Ca := Cd) Ca (w_wrap w) ez80 (fold_name case) tk Un _ _ _ _ _ Os).
    destruct (after _ _ _ _ n1 h1 (l_first l)) as [(a0, c0)|]; [|discriminate]. now rewrite app_nil_r in As.
Qed.

(** * C53 *)
(** A program that includes a file is assembled like the program with the text of that file in
    the place of the line that includes it. *)
Lemma join_size w search srcs z sb : source (w_files w) search srcs z = Some sb -> (length (blocks_text sb) <= sources_size srcs)%nat.
Proof.
  intros H. unfold source in H. destruct (located _ _ _) as [f|]; [|discriminate]. match type of H with match ?x with _ => _ end = _ => destruct x as [(f0, b0)|] eqn:E end; [|discriminate]. injection H as ->.
  apply find_some in E as (I & _). pose proof (source_size srcs) as F. rewrite Forall_forall in F. specialize (F _ I). cbn [snd] in F. lia.
Qed.
Theorem c53_in_place_partial : forall w dirs defs ez80 case fuel input other output x stem os hs ks srcs depth b1 l z sb b2 p r bts,
  Forall dir_ok dirs -> Forall option_ok defs -> hd0 input <> 45 -> hd0 other <> 45 -> hd0 output <> 45 -> home (w_cwd w) other = home (w_cwd w) input ->
  include_line l z -> source (w_files w) (home (w_cwd w) input :: dirs) srcs z = Some sb ->
  w_files w input = Some (header_text hs ++ blocks_text (join b1 (Line l b2))) ->
  w_files w other = Some (header_text hs ++ blocks_text (join b1 (join sb b2))) -> plain_name output x stem ->
  macro_program w (home (w_cwd w) input :: dirs) defs ez80 case os hs ks srcs (S depth) (join b1 (Line l b2)) p r bts -> zlen bts <= 8000000 ->
  (length (header_text hs ++ blocks_text (join b1 (Line l b2))) + 2 * sources_size srcs + 3 * depth + 53 <= fuel)%nat ->
  exists s s', main fuel w (command_in dirs defs ez80 case input output) = Done 0 [(output, exported_bytes x bts)] (Some s) /\ s_printed s = [] /\
    main fuel w (command_in dirs defs ez80 case other output) = Done 0 [(output, exported_bytes x bts)] (Some s') /\ s_printed s' = [] /\
    forall n, option_map l_value (tfind (fold_name case n) (s_labels s)) = option_map l_value (tfind (fold_name case n) (s_labels s')).
Proof.
  intros w dirs defs ez80 case fuel input other output x stem os hs ks srcs depth b1 l z sb b2 p r bts Hd Od Hi Ht Ho Hm Il Sc F1 F2 Pl Mp Rm Fu.
  destruct (in_place _ _ _ _ _ _ _ _ _ _ _ _ _ _ _ _ _ _ Il Sc Mp) as (p' & Mp').
  destruct (c53_files_partial w dirs defs ez80 case fuel input output x stem os hs ks srcs (S depth) _ p r bts Hd Od Hi Ho F1 Pl Mp Rm ltac:(lia)) as (s & E & Pr & Lb).
  pose proof (join_size _ _ _ _ _ Sc) as Sz. rewrite <- Hm in Mp'.
  destruct (c53_files_partial w dirs defs ez80 case fuel other output x stem os hs ks srcs (S depth) _ p' r bts Hd Od Ht Ho F2 Pl Mp' Rm) as (s' & E' & Pr' & Lb').
  { rewrite !join_text, !app_length in *. cbn [blocks_text] in *. rewrite !app_length in *. lia. }
  exists s, s'. repeat (split; [assumption|]). intros n. now rewrite Lb, Lb'.
Qed.
Print Assumptions c53_files_partial.
Print Assumptions c53_in_place_partial.

(** ** A program in several files *)
Definition paste_line (word : text) (n : text) : line := ex_line (mksection None false [] (SPaste (mkpaste word sp n []))) [] None.
Definition label_line (n : text) (x : stmt) : line := ex_line (mksection (Some n) true (match x with SNone => [] | _ => sp end) x) [] None.
Definition ex_ret1 : stmt := ex_ins (zs "ret") [] [] [] [] [].
Definition ex_z : paste := mkpaste (zs "include") sp (zs "a.inc") [].
Definition ex_inc : line := paste_line (zs "include") (zs "a.inc").
Definition ex_before : blocks := Line (db2 (zs "last") (zs "2") (ex_name (zs "last")) (ex_num (zs "2"))) Nil.
Definition ex_behind : blocks := Line ex_ret Nil.
Definition ex_a : blocks := Line (label_line (zs "first") SNone) (Line (paste_line (zs "IMPORT") (zs "raw.dat")) (Line (paste_line (zs "include") (zs "b.inc")) Nil)).
Definition ex_b : blocks := Line (label_line (zs "last") ex_ret1) Nil.
Definition ex_raw : list Z := [1; 0; 255].
Example ex_files_text :
  blocks_text (join ex_before (Line ex_inc ex_behind)) = zs " .db last,2" ++ [10] ++ zs "#include " ++ [34] ++ zs "a.inc" ++ [34; 10] ++ zs " ret" ++ [10] /\
  blocks_text ex_a = zs "first:" ++ [10] ++ zs "#IMPORT " ++ [34] ++ zs "raw.dat" ++ [34; 10] ++ zs "#include " ++ [34] ++ zs "b.inc" ++ [34; 10] /\
  blocks_text ex_b = zs "last: ret" ++ [10].
Proof. repeat split. Qed.
Definition ex_disk (n : text) : option (list Z) :=
  if eqbl n (zs "in.asm") then Some (blocks_text (join ex_before (Line ex_inc ex_behind)))
  else if eqbl n (zs "all.asm") then Some (blocks_text (join ex_before (join ex_a ex_behind)))
  else if eqbl n (zs "/lib/a.inc") then Some (blocks_text ex_a)
  else if eqbl n (zs "/p/b.inc") then Some (blocks_text ex_b)
  else if eqbl n (zs "/lib/raw.dat") then Some ex_raw else None.
Definition ex_disks (wr : bool) : world := mkworld ex_disk (fun _ => 0) (zs "/p") (fun _ => []) wr.
Definition ex_sources : list (text * blocks) := [(zs "/lib/a.inc", ex_a); (zs "/p/b.inc", ex_b)].
Definition ex_search : list text := [zs "/p"; zs "/lib"].
Notation ex_fa wr d := (calls wr false (fold_name false) (known_names false [] []) opcode_list [] [] ex_disk ex_search ex_sources d).
Notation ex_ftk := (known_names false [] []).
Lemma f_step {Ca : Calls} wr now here x l now' here' : section_ok wr false (fold_name false) ex_ftk opcode_list now here x -> after wr false (fold_name false) ex_ftk now here x = Some (now', here') ->
  sections_ok wr false (fold_name false) ex_ftk opcode_list now' here' l -> sections_ok wr false (fold_name false) ex_ftk opcode_list now here (x :: l).
Proof. intros A B E. cbn [sections_ok]. rewrite B. auto. Qed.
Lemma f_ret {Ca : Calls} wr here now : stmt_ok wr false (fold_name false) ex_ftk opcode_list here now ex_ret1.
Proof.
  unfold ex_ret1, ex_ins. cbn [stmt_ok]. destruct (row_first (op_of (map toupper (zs "ret"))) []) as (R1 & R2); [reflexivity|].
  split; [apply op_in; reflexivity|]. split; [exact R1|]. split; [reflexivity|]. split; [now left|]. split; [constructor|]. split; [reflexivity|]. rewrite R2. split; [constructor|]. split; [constructor|]. split; [vm_compute; discriminate|].
  split; [split; reflexivity|]. split; [constructor|]. intros [].
Qed.
Lemma ex_fname n : forallb (fun c => negb (memb c [34; 92; 10; 13; 59])) n = true -> zlen n <= 200 -> negb (memb (hd0 n) [0; 32; 9; 11; 12]) = true -> file_name n.
Proof.
  intros F L H. split; [|split; [exact L|]].
  - rewrite forallb_forall in F. apply Forall_forall. intros c I. specialize (F c I). unfold memb in F. cbn [existsb] in F. lia.
  - destruct n as [|c n]; [discriminate|]. unfold memb in H. cbn [hd0 existsb] in H. unfold blank. lia.
Qed.
Lemma ex_b_ok wr : sections_ok (Ca := ex_fa wr 0) wr false (fold_name false) ex_ftk opcode_list [(zs "first", 2)] 5 (sections [label_line (zs "last") ex_ret1]).
Proof.
  unfold sections. cbn [flat_map app l_first l_more label_line ex_line]. eapply (f_step (Ca := ex_fa wr 0)); [|destruct wr; vm_compute; reflexivity|exact I].
  split; [split; [exact ex_sp|discriminate]|]. split; [now apply name_okb_ok|]. apply f_ret.
Qed.
Lemma ex_a_ok wr : sections_ok (Ca := ex_fa wr 1) wr false (fold_name false) ex_ftk opcode_list [] 2 (sections [label_line (zs "first") SNone; paste_line (zs "IMPORT") (zs "raw.dat"); paste_line (zs "include") (zs "b.inc")]).
Proof.
  unfold sections. cbn [flat_map app l_first l_more label_line paste_line ex_line].
  eapply (f_step (Ca := ex_fa wr 1)); [|destruct wr; vm_compute; reflexivity|].
  { split; [split; [constructor|reflexivity]|]. split; [now apply name_okb_ok|exact I]. }
  eapply (f_step (Ca := ex_fa wr 1)); [|destruct wr; vm_compute; reflexivity|].
  { split; [split; [apply Forall_nil|intros _; now left]|]. split; [exact I|]. split; [reflexivity|]. split; [exact ex_gap|]. split; [now apply ex_fname|]. split; [constructor|]. split; [vm_compute; discriminate|].
    change (Forall (fun c => 0 <= c < 256) ex_raw). repeat (apply Forall_cons; [lia|]). constructor. }
  eapply (f_step (Ca := ex_fa wr 1)); [|destruct wr; vm_compute; reflexivity|exact I].
  split; [split; [apply Forall_nil|intros _; now left]|]. split; [exact I|]. split; [reflexivity|]. split; [exact ex_gap|]. split; [now apply ex_fname|]. split; [constructor|]. split; [vm_compute; discriminate|].
  split; [repeat (split; [now apply ex_bare|split; [discriminate|]]); exact I|]. exact (ex_b_ok wr).
Qed.
Definition ex_fprogram : list line := [db2 (zs "last") (zs "2") (ex_name (zs "last")) (ex_num (zs "2")); ex_inc; ex_ret].
Lemma ex_f_ok wr : sections_ok (Ca := ex_fa wr 2) wr false (fold_name false) ex_ftk opcode_list [] 0 (sections ex_fprogram).
Proof.
  unfold ex_fprogram, sections. cbn [flat_map app l_first l_more db2 ex_inc paste_line ex_ret ex_line].
  eapply (f_step (Ca := ex_fa wr 2)); [|destruct wr; vm_compute; reflexivity|].
  { split; [split; [exact ex_sp|discriminate]|]. split; [exact I|]. split; [exact ex_gap|]. split; [discriminate|]. split; [|reflexivity].
    split; [apply ex_mname; [reflexivity|vm_compute; discriminate]|]. split; [split; destruct wr; vm_compute; reflexivity|].
    split; [apply ex_mnum; [constructor|discriminate|reflexivity|vm_compute; discriminate]|]. split; [split; destruct wr; vm_compute; reflexivity|exact I]. }
  eapply (f_step (Ca := ex_fa wr 2)); [|destruct wr; vm_compute; reflexivity|].
  { split; [split; [apply Forall_nil|intros _; now left]|]. split; [exact I|]. split; [reflexivity|]. split; [exact ex_gap|]. split; [now apply ex_fname|]. split; [constructor|]. split; [vm_compute; discriminate|].
    split; [repeat (split; [now apply ex_bare|split; [discriminate|]]); exact I|]. exact (ex_a_ok wr). }
  eapply (f_step (Ca := ex_fa wr 2)); [|destruct wr; vm_compute; reflexivity|exact I].
  split; [split; [exact ex_sp|discriminate]|]. split; [exact I|]. apply f_ret.
Qed.
Lemma ex_file_program wr : macro_program (ex_disks wr) ex_search [] false false [] [] [] ex_sources 2 (join ex_before (Line ex_inc ex_behind)) ex_fprogram ([(zs "last", 5); (zs "first", 2)], 7) [5; 2; 1; 0; 255; 201; 201].
Proof.
  assert (Nz : forall t, forallb (fun c => negb (c =? 0)) t = true -> Forall (fun c => c <> 0) t) by (intros t E; rewrite forallb_forall in E; apply Forall_forall; intros c Hc; specialize (E c Hc); cbv beta in E; lia).
  constructor.
  - split; [apply Nz; vm_compute; reflexivity|split; vm_compute; discriminate].
  - split; [constructor|reflexivity].
  - split; [constructor|reflexivity].
  - reflexivity.
  - repeat (apply Forall_cons; [split; [reflexivity|split; [apply Nz; vm_compute; reflexivity|vm_compute; split; [discriminate|intros; discriminate]]]|]). constructor.
  - cbn [join ex_before ex_behind blocks_ok]. repeat (split; [now apply ex_bare|split; [discriminate|]]). exact I.
  - unfold macro_calls, ex_disks. cbn [w_wrap w_files]. destruct wr; vm_compute; reflexivity.
  - exact (ex_f_ok wr).
  - unfold macro_calls, ex_disks. cbn [w_wrap w_files]. destruct wr; vm_compute; reflexivity.
Qed.
Example c53_example : forall wr, exists s s',
  main 400 (ex_disks wr) [zs "-I/lib"; zs "in.asm"; zs "out.bin"] = Done 0 [(zs "out.bin", [5; 2; 1; 0; 255; 201; 201])] (Some s) /\ s_printed s = [] /\
  main 400 (ex_disks wr) [zs "-I/lib"; zs "all.asm"; zs "out.bin"] = Done 0 [(zs "out.bin", [5; 2; 1; 0; 255; 201; 201])] (Some s') /\ s_printed s' = [].
Proof.
  intros wr. destruct (c53_in_place_partial (ex_disks wr) [zs "/lib"] [] false false 400 (zs "in.asm") (zs "all.asm") (zs "out.bin") ExBinary (zs "out") [] [] [] ex_sources 1 ex_before ex_inc ex_z ex_a ex_behind
    ex_fprogram ([(zs "last", 5); (zs "first", 2)], 7) [5; 2; 1; 0; 255; 201; 201]) as (s & s' & E & Pr & E' & Pr' & _).
  - repeat constructor; try discriminate; lia.
  - constructor.
  - vm_compute; discriminate.
  - vm_compute; discriminate.
  - vm_compute; discriminate.
  - reflexivity.
  - repeat split; reflexivity.
  - vm_compute. reflexivity.
  - reflexivity.
  - reflexivity.
  - right. exists (zs "bin"). split; [reflexivity|]. split; [discriminate|]. split; [vm_compute; intuition discriminate|]. split; [reflexivity|now left].
  - exact (ex_file_program wr).
  - vm_compute; discriminate.
  - vm_compute. lia.
  - exists s, s'. split; [exact E|split; [exact Pr|split; [exact E'|exact Pr']]].
Qed.

(** * C54 *)
(** #import puts the bytes of a file at the current place, in every state. *)
Theorem c54_import C R word gap name b rest s f bytes : word_is word [zs "import"] = true -> gap_ok gap -> file_name name -> Forall blank b -> zlen b <= 50 -> line_over rest ->
  located (c_files C) (s_incdirs s) name = Some f -> c_files C f = Some bytes -> Forall is_byte bytes -> BitmapRun.counted s -> PassTwoSpec.room (zlen bytes) s ->
  exists s1, handle_preop C R (word ++ gap ++ 34 :: name ++ 34 :: b ++ rest) s = Ok (Some rest) s1 /\ BitmapRun.wrote bytes s s1.
Proof.
  intros W (Gn & Gb) Of Oa Ol Lo Lc Fb Ib Hc Hr.
  destruct (preop_word word [zs "import"] (gap ++ 34 :: name ++ 34 :: b ++ rest) P_IMPORT W ltac:(repeat constructor)) as (E1 & E2 & E3).
  { destruct gap as [|c g]; [congruence|]. inversion Gb; subst. now apply blank_space. }
  unfold handle_preop. rewrite E1, E2, E3. rewrite skip_ws_app by exact Gb. rewrite skip_ws_nonblank by (unfold blank; lia).
  unfold preop_import. change (is_eol (34 :: name ++ 34 :: b ++ rest)) with false. cbv iota.
  unfold read_expr, read_expr'. rewrite (IncludeProps.read_quoted name b rest (plain_file _ Of) Oa Ol Lo). cbn [rx_long rx_ptr rx_word].
  rewrite !bind_assoc, !bind_ret. cbn [rx_long rx_ptr rx_word].
  assert (Eu : unquote (fix_filename (34 :: name ++ [34])) = name).
  { destruct Of as (Of & _). change (fix_filename (34 :: name ++ [34])) with (IncludeProps.slashes (34 :: name ++ [34])). rewrite IncludeProps.slashes_id.
    - unfold unquote. rewrite (skip_ws_nonblank 34) by (unfold UtilsSpec.blank; lia). cbn [hd0 Z.eqb Pos.eqb tl]. apply IncludeProps.to_quote_app.
      eapply Forall_impl; [|exact Of]. simpl. intros c. lia.
    - constructor; [lia|]. apply Forall_app. split; [|repeat constructor; lia]. eapply Forall_impl; [|exact Of]. simpl. intros c. lia. }
  rewrite Eu. unfold full_path. rewrite !bind_assoc, bind_get, bind_ret.
  pose proof (located_is (dr := fresh_dirs (s_incdirs s)) C name Of) as L0. change (@dirs (fresh_dirs (s_incdirs s))) with (s_incdirs s) in L0. rewrite L0, Lc, Fb.
  destruct (BitmapRun.emit_all_is bytes s Hc Hr) as (s1 & E & Wr). rewrite BitmapRun.u8_bytes in Wr by exact Ib. rewrite bind_assoc, (bind_ok _ _ _ _ _ E), bind_ret. exists s1. split; [reflexivity|exact Wr].
Qed.
Print Assumptions c54_import.
Example c54_import_ex : forall wr, located ex_disk ex_search (zs "raw.dat") = Some (zs "/lib/raw.dat") /\ Forall is_byte ex_raw /\
  exists s, main 400 (ex_disks wr) [zs "-I/lib"; zs "in.asm"; zs "out.bin"] = Done 0 [(zs "out.bin", [5; 2] ++ ex_raw ++ [201; 201])] (Some s).
Proof.
  intros wr. split; [reflexivity|]. split; [unfold is_byte; repeat (apply Forall_cons; [lia|]); constructor|]. destruct (c53_example wr) as (s & _ & E & _). exists s. exact E.
Qed.
(** A file that is not there should be an error; #import reads through a null pointer instead. *)
Theorem c54_missing_refuted : forall C R word gap name b rest s, word_is word [zs "import"] = true -> gap_ok gap -> file_name name -> Forall blank b -> zlen b <= 50 -> line_over rest ->
  located (c_files C) (s_incdirs s) name = None -> handle_preop C R (word ++ gap ++ 34 :: name ++ 34 :: b ++ rest) s = Undef UB_null.
Proof.
  intros C R word gap name b rest s W (Gn & Gb) Of Oa Ol Lo Lc.
  destruct (preop_word word [zs "import"] (gap ++ 34 :: name ++ 34 :: b ++ rest) P_IMPORT W ltac:(repeat constructor)) as (E1 & E2 & E3).
  { destruct gap as [|c g]; [congruence|]. inversion Gb; subst. now apply blank_space. }
  unfold handle_preop. rewrite E1, E2, E3. rewrite skip_ws_app by exact Gb. rewrite skip_ws_nonblank by (unfold blank; lia).
  unfold preop_import. change (is_eol (34 :: name ++ 34 :: b ++ rest)) with false. cbv iota.
  unfold read_expr, read_expr'. rewrite (IncludeProps.read_quoted name b rest (plain_file _ Of) Oa Ol Lo). cbn [rx_long rx_ptr rx_word].
  rewrite !bind_assoc, !bind_ret. cbn [rx_long rx_ptr rx_word].
  assert (Eu : unquote (fix_filename (34 :: name ++ [34])) = name).
  { destruct Of as (Of & _). change (fix_filename (34 :: name ++ [34])) with (IncludeProps.slashes (34 :: name ++ [34])). rewrite IncludeProps.slashes_id.
    - unfold unquote. rewrite (skip_ws_nonblank 34) by (unfold UtilsSpec.blank; lia). cbn [hd0 Z.eqb Pos.eqb tl]. apply IncludeProps.to_quote_app.
      eapply Forall_impl; [|exact Of]. simpl. intros c. lia.
    - constructor; [lia|]. apply Forall_app. split; [|repeat constructor; lia]. eapply Forall_impl; [|exact Of]. simpl. intros c. lia. }
  rewrite Eu. unfold full_path. rewrite !bind_assoc, bind_get, bind_ret. pose proof (located_is (dr := fresh_dirs (s_incdirs s)) C name Of) as L0. change (@dirs (fresh_dirs (s_incdirs s))) with (s_incdirs s) in L0. rewrite L0, Lc. reflexivity.
Qed.
Example c54_missing_ex : main 100 (mkworld (fun n => if eqbl n (zs "in.asm") then Some (zs "#import " ++ [34] ++ zs "no" ++ [34; 10]) else None) (fun _ => 0) (zs "/p") (fun _ => []) true) [zs "in.asm"; zs "b.bin"] = Crash UB_null.
Proof. vm_compute. reflexivity. Qed.
Print Assumptions c54_missing_refuted.
