(** What is in a listing (C67). *)
From Coq Require Import String.
From Verif Require Import Base BaseProofs State UtilsModel UtilsSpec UtilsProofs CondSpec CondSkip ListingModel.

(** ** What a listing should be *)
(** A line of the source (or several lines read as one, like a macro definition): its number,
    the address before and after it, its text, and the bytes it gives: some at once, some as
    placeholders that get their values in the second pass. *)
Inductive part := Now (l : list Z) | Later (first final : list Z).
Inductive effect := Gives (l : list part) | Lists | ListsNot.
Record entry := mkentry { n_line : Z; n_pc : Z; n_after : Z; n_text : text; n_more : list text; n_does : effect }.
Definition final_bytes (l : list part) : list Z := flat_map (fun p => match p with Now l => l | Later _ l => l end) l.
Definition all_lines (e : entry) : list text := n_text e :: n_more e.

(** Two digits and a blank for a byte; after four bytes a new row, under the first one. *)
Definition byte_text (b : Z) : text := [hexdig (b / 16); hexdig (b mod 16); 32].
Definition row_break : text := 10 :: repeat 32 14.
Fixpoint cells (w : nat) (l : list Z) : text :=
  match l with
  | [] => []
  | b :: l' => if Nat.eqb w 4 then row_break ++ byte_text b ++ cells 1 l' else byte_text b ++ cells (S w) l'
  end.
Fixpoint column (w : nat) (l : list Z) : nat :=
  match l with [] => w | _ :: l' => if Nat.eqb w 4 then column 1 l' else column (S w) l' end.
Definition missing (w : nat) : text := List.concat (repeat (zs "-  ") (4 - w)).
(** The number, right-aligned in five columns, and the address with its bank. *)
Definition heading (ln pc : Z) : text := repeat 32 (5 - length (dec ln)) ++ dec ln ++ [32] ++ hexfix 2 (pc / 65536) ++ [58] ++ hexfix 4 (pc mod 65536).
(** The further lines of an entry, with their numbers; the last line may lack its end. *)
Fixpoint further (ln pc : Z) (l : list text) : text :=
  match l with [] => [] | t :: l' => heading ln pc ++ repeat 32 13 ++ t ++ further (ln + 1) pc l' end.
Definition shown (e : entry) (l : list part) : text :=
  heading (n_line e) (n_pc e) ++ [32] ++ cells 0 (final_bytes l) ++ missing (column 0 (final_bytes l)) ++
  n_text e ++ further (n_line e + 1) (n_after e) (n_more e) ++ (if last (last (n_more e) (n_text e)) 0 =? 10 then [] else [10]).
(** Between [.nolist] and [.list] nothing is shown, nor are these two lines. *)
Fixpoint listed (on : bool) (l : list entry) : text :=
  match l with
  | [] => []
  | e :: l' =>
    match n_does e with
    | Gives p => (if on then shown e p else []) ++ listed on l'
    | Lists => (if on then shown e [] else []) ++ listed true l'
    | ListsNot => listed false l'
    end
  end.

(** What is asked: lines are lines, numbers and addresses fit into their columns, bytes are
    bytes, and a placeholder has as many bytes as it gets. *)
Definition byte (b : Z) : Prop := 0 <= b <= 255.
Definition part_ok (p : part) : Prop := match p with Now l => Forall byte l | Later a b => length a = length b /\ Forall byte a /\ Forall byte b end.
(** The last line of all may lack its end. *)
Definition last_line (t : text) : Prop := lineish t \/ t <> [] /\ no_break t.
Fixpoint lines_ok (final : bool) (t : text) (l : list text) : Prop :=
  match l with [] => if final then last_line t else lineish t | t' :: l' => lineish t /\ lines_ok final t' l' end.
Definition entry_ok (final : bool) (e : entry) : Prop :=
  0 <= n_line e /\ n_line e + Z.of_nat (length (n_more e)) < 100000 /\ 0 <= n_pc e < 16777216 /\ 0 <= n_after e < 16777216 /\
  lines_ok final (n_text e) (n_more e) /\ match n_does e with Gives l => Forall part_ok l | _ => True end.
Fixpoint entries_ok (l : list entry) : Prop :=
  match l with [] => True | e :: l' => entry_ok (match l' with [] => true | _ => false end) e /\ entries_ok l' end.

(** The run: one round of the first pass for an entry, and the values of the second pass. *)
Definition part_events (p : part) : list event := match p with Now l => map Byte l | Later a _ => Wait :: map Byte a end.
Definition events_of (x : effect) : list event := match x with Gives l => flat_map part_events l | Lists => [TurnOn] | ListsNot => [TurnOff] end.
Definition values_of (x : effect) : list (list Z) := match x with Gives l => flat_map (fun p => match p with Now _ => [] | Later _ b => [b] end) l | _ => [] end.
Definition text_of (l : list entry) : text := flat_map (fun e => List.concat (all_lines e)) l.
Fixpoint rounds_of (l : list entry) : list round :=
  match l with
  | [] => []
  | e :: l' => mkround (n_line e) (n_pc e) (n_after e) (List.concat (all_lines e) ++ text_of l') (text_of l') (events_of (n_does e)) :: rounds_of l'
  end.

(** ** Cells *)
Lemma hexdig_shown d : 0 <= d <= 15 -> isspace (hexdig d) = false.
Proof. intros H. unfold hexdig. destruct (d <? 10) eqn:E; unfold isspace; lia. Qed.
Lemma byte_digits v : byte v -> hexw 2 (Z.land v 255) ++ [32] = byte_text v /\ isspace (hexdig (v / 16)) = false.
Proof.
  unfold byte. intros H. assert (E : Z.land v 255 = v). { change 255 with (Z.ones 8). rewrite Z.land_ones by lia. apply Z.mod_small. lia. }
  assert (D : 0 <= v / 16 <= 15) by (split; [apply Z.div_pos; lia|]; assert (v / 16 < 16) by (apply Z.div_lt_upper_bound; lia); lia).
  split; [|now apply hexdig_shown]. rewrite E, hexw_fix by (cbn; lia). cbn [hexfix app]. rewrite (Z.mod_small (v / 16)) by lia. reflexivity.
Qed.
Lemma cells_app w a b : cells w (a ++ b) = cells w a ++ cells (column w a) b.
Proof.
  revert w. induction a as [|x a IH]; intros w; [reflexivity|]. cbn [app cells column]. destruct (Nat.eqb w 4); rewrite IH, <- !app_assoc; reflexivity.
Qed.
Lemma column_app w a b : column w (a ++ b) = column (column w a) b.
Proof. revert w. induction a as [|x a IH]; intros w; [reflexivity|]. cbn [app column]. destruct (Nat.eqb w 4); apply IH. Qed.
Lemma column_length w a b : length a = length b -> column w a = column w b /\ length (cells w a) = length (cells w b).
Proof.
  revert w b. induction a as [|x a IH]; intros w [|y b] L; try discriminate; [now split|]. injection L as L. cbn [column cells].
  destruct (Nat.eqb w 4); [destruct (IH 1%nat b L) as (-> & E)|destruct (IH (S w) b L) as (-> & E)]; (split; [reflexivity|]); unfold byte_text; rewrite !app_length; cbn [length]; lia.
Qed.
Lemma column_4 w a : (w <= 4)%nat -> (column w a <= 4)%nat.
Proof. revert w. induction a as [|x a IH]; intros w L; [exact L|]. cbn [column]. destruct (Nat.eqb w 4) eqn:E; apply IH; [lia|]. apply Nat.eqb_neq in E. lia. Qed.

(** ** Texts with places to be filled *)
Inductive piece := Fixed (t : text) | Slot (w : nat) (a b : list Z) | Hidden (o : nat) (b : list Z).
Definition first_text (p : piece) : text := match p with Fixed t => t | Slot w a _ => cells w a | Hidden _ _ => [] end.
Definition second_text (p : piece) : text := match p with Fixed t => t | Slot w _ b => cells w b | Hidden _ _ => [] end.
Definition flat1 (l : list piece) : text := flat_map first_text l.
Definition flat2 (l : list piece) : text := flat_map second_text l.
Fixpoint notes_of (pos : nat) (l : list piece) : list ((nat * bool) * list Z) :=
  match l with
  | [] => []
  | Fixed t :: l' => notes_of (pos + length t) l'
  | Slot w a b :: l' => ((pos, true), b) :: notes_of (pos + length (cells w a)) l'
  | Hidden o b :: l' => ((o, false), b) :: notes_of pos l'
  end.
Definition piece_ok (p : piece) : Prop := match p with Slot w a b => length a = length b /\ Forall byte b | _ => True end.
Lemma flat1_app a b : flat1 (a ++ b) = flat1 a ++ flat1 b.
Proof. apply flat_map_app. Qed.
Lemma flat2_app a b : flat2 (a ++ b) = flat2 a ++ flat2 b.
Proof. apply flat_map_app. Qed.
Lemma notes_app pos a b : notes_of pos (a ++ b) = notes_of pos a ++ notes_of (pos + length (flat1 a)) b.
Proof.
  revert pos. induction a as [|p a IH]; intros pos; [cbn; now rewrite Nat.add_0_r|]. cbn [app flat1 flat_map]. fold (flat1 a). rewrite app_length.
  destruct p; cbn [notes_of first_text app length]; rewrite IH; [now rewrite Nat.add_assoc|now rewrite Nat.add_assoc|reflexivity].
Qed.

(** ** The second pass *)
Lemma skip_space_spec fuel : forall sp A c rest, Forall (fun c => isspace c = true) sp -> isspace c = false -> (length sp < fuel)%nat ->
  skip_space fuel (A ++ sp ++ c :: rest) (length A) = (length A + length sp)%nat.
Proof.
  induction fuel as [|f IH]; intros sp A c rest F Nc L; [lia|]. cbn [skip_space]. rewrite app_nth2, Nat.sub_diag by lia. destruct sp as [|x sp].
  - cbn [app nth length]. rewrite Nc. lia.
  - inversion F; subst. cbn [app nth]. rewrite H1. cbn [length] in *. specialize (IH sp (A ++ [x]) c rest H2 Nc ltac:(lia)). rewrite <- app_assoc in IH. cbn [app] in IH.
    rewrite app_length in IH. cbn [length] in IH. replace (S (length A)) with (length A + 1)%nat by lia. rewrite IH. lia.
Qed.
Lemma firstn_at {A} (a b : list A) : firstn (length a) (a ++ b) = a.
Proof. rewrite firstn_app, Nat.sub_diag, firstn_all. apply app_nil_r. Qed.
Lemma skipn_at {A} (a b : list A) : skipn (length a) (a ++ b) = b.
Proof. rewrite skipn_app, Nat.sub_diag, skipn_all. reflexivity. Qed.
Lemma fill_cells b : forall a w A rest g, Forall byte a -> Forall byte b -> length a = length b -> g_on g = true -> g_off g = length A -> g_buf g = A ++ cells w a ++ rest ->
  let g' := fold_left (fun g v => list_out false v g) b g in g_buf g' = A ++ cells w b ++ rest.
Proof.
  induction b as [|y b IH]; intros [|x a] w A rest g Fa Fb L On Off Buf; try discriminate; [exact Buf|].
  inversion Fa as [|? ? Bx Fa']; subst. inversion Fb as [|? ? By Fb']; subst. injection L as L. destruct (byte_digits y By) as (Ty & _). destruct (byte_digits x Bx) as (_ & Nx).
  cbn zeta. cbn [fold_left].
  assert (Step : forall A' w' rest', g_buf g = A' ++ byte_text x ++ rest' -> rest' = cells w' a ++ rest ->
    set_off (length A') g = (let c := nth (g_off g) (g_buf g) 0 in if (c =? 10) || (c =? 13) then set_off (skip_space (length (g_buf g)) (g_buf g) (g_off g)) g else g) ->
    g_buf (fold_left (fun g v => list_out false v g) b (list_out false y g)) = A' ++ byte_text y ++ cells w' b ++ rest).
  { intros A' w' rest' Eb Er Es. unfold list_out at 2. rewrite On. cbn [andb]. cbn zeta in Es. cbn zeta. rewrite <- Es, Ty. unfold list_overwrite. cbn [g_off g_buf set_off g_width g_on g_done].
    rewrite Eb, firstn_at. replace (length A' + length (byte_text y))%nat with (length (A' ++ byte_text x)) by (rewrite app_length; reflexivity).
    rewrite (app_assoc A' (byte_text x)), skipn_at.
    specialize (IH a w' (A' ++ byte_text y) rest (set_width (S (g_width g)) (mklisting (A' ++ byte_text y ++ rest') (length A' + length (byte_text y)) (g_width g) (g_on g) (g_done g))) Fa' Fb' L).
    cbn zeta in IH. rewrite <- app_assoc in IH. replace (length (A' ++ byte_text x)) with (length A' + length (byte_text y))%nat by (rewrite app_length; reflexivity). rewrite IH; [rewrite <- app_assoc; reflexivity|exact On| |].
    - cbn [g_off set_width]. now rewrite app_length.
    - cbn [g_buf set_width]. now rewrite Er. }
  cbn [cells] in *. destruct (Nat.eqb w 4).
  - rewrite <- !app_assoc in Buf. rewrite <- !app_assoc. rewrite (app_assoc A row_break). apply (Step (A ++ row_break) 1%nat (cells 1 a ++ rest)); [now rewrite <- app_assoc|reflexivity|].
    rewrite Off, Buf. cbn zeta. rewrite app_nth2, Nat.sub_diag by lia. cbn [row_break app nth Z.eqb Pos.eqb orb].
    change (10 :: repeat 32 14 ++ byte_text x ++ cells 1 a ++ rest) with (row_break ++ hexdig (x / 16) :: (hexdig (x mod 16) :: 32 :: cells 1 a ++ rest)).
    rewrite skip_space_spec; [now rewrite app_length|repeat constructor|exact Nx|]. rewrite !app_length. cbn [length row_break repeat]. lia.
  - rewrite <- !app_assoc in Buf. rewrite <- !app_assoc. apply (Step A (S w) (cells (S w) a ++ rest)); [exact Buf|reflexivity|].
    rewrite Off, Buf. cbn zeta. rewrite app_nth2, Nat.sub_diag by lia. cbn [byte_text app nth].
    assert (N : ((hexdig (x / 16) =? 10) || (hexdig (x / 16) =? 13)) = false) by (unfold isspace in Nx; lia). rewrite N. unfold set_off. rewrite <- Off. now destruct g.
Qed.
Lemma fill_pieces l : Forall piece_ok l -> Forall (fun p => match p with Slot _ a _ => Forall byte a | _ => True end) l -> forall A rest g, g_buf g = A ++ flat1 l ++ rest ->
  g_buf (fold_left list_fill (notes_of (length A) l) g) = A ++ flat2 l ++ rest.
Proof.
  induction l as [|p l IH]; intros Ol Oa A rest g Buf; [exact Buf|]. inversion Ol as [|? ? Op Ol']; subst. inversion Oa as [|? ? Pa Oa']; subst. cbn [flat1 flat2 flat_map] in *. fold (flat1 l) in Buf. fold (flat2 l).
  destruct p as [t|w a b|o b]; cbn [first_text second_text notes_of fold_left app] in *; rewrite <- ?app_assoc in *.
  - specialize (IH Ol' Oa' (A ++ t) rest g). rewrite app_length in IH. rewrite <- !app_assoc in IH. apply IH. exact Buf.
  - destruct Op as (L & Fb). rewrite (proj2 (column_length w a b L)). specialize (IH Ol' Oa' (A ++ cells w b) rest). rewrite app_length in IH.
    rewrite IH; [now rewrite <- app_assoc|]. unfold list_fill. rewrite <- app_assoc.
    apply (fill_cells b a w A (flat1 l ++ rest) (set_on true (set_off (length A) g)) Pa Fb L eq_refl eq_refl Buf).
  - apply IH; auto. unfold list_fill. set (g0 := set_on false (set_off o g)).
    assert (E : fold_left (fun g v => list_out false v g) b g0 = g0).
    { assert (On : g_on g0 = false) by reflexivity. clear -On. revert g0 On. induction b as [|y b IH]; intros g0 On; [reflexivity|]. cbn [fold_left]. unfold list_out at 2. rewrite On. now apply IH. }
    rewrite E. exact Buf.
Qed.

(** ** The first pass *)
(** The listing so far is [sh], and something behind it is not part of it. *)
Definition stands (on : bool) (w : nat) (dn : bool) (sh : list piece) (x : listing * list (nat * bool)) : Prop :=
  exists junk, g_buf (fst x) = flat1 sh ++ junk /\ g_off (fst x) = length (flat1 sh) /\ g_width (fst x) = w /\ g_on (fst x) = on /\ g_done (fst x) = dn /\
    snd x = map fst (notes_of 0 sh).
Lemma insert_stands on w dn sh g notes t : t <> [] -> stands on w dn sh (g, notes) -> stands on w dn (sh ++ [Fixed t]) (list_insert t g, notes).
Proof.
  intros N (junk & B & O & W & On & Dn & Ns). cbn [fst snd] in *. exists junk. cbn [fst snd]. unfold list_insert. destruct t as [|c t]; [congruence|]. cbn [g_buf g_off g_width g_on g_done].
  rewrite flat1_app. cbn [flat1 flat_map first_text]. rewrite app_nil_r. rewrite B, O, firstn_at, skipn_at, app_length, <- !app_assoc. repeat (split; [auto|]).
  rewrite notes_app. cbn [notes_of]. rewrite app_nil_r. exact Ns.
Qed.
Lemma stands_width on w w' dn sh g notes : stands on w dn sh (g, notes) -> stands on w' dn sh (set_width w' g, notes).
Proof. intros (junk & H). exists junk. cbn in *. intuition. Qed.
(** Fixed texts side by side are one. *)
Lemma stands_glue on w dn sh a b x : stands on w dn (sh ++ [Fixed a; Fixed b]) x -> stands on w dn (sh ++ [Fixed (a ++ b)]) x.
Proof.
  intros (junk & B & O & W & On & Dn & Ns). exists junk. rewrite !flat1_app, !notes_app in *. cbn [flat1 flat_map first_text app notes_of] in *. rewrite !app_nil_r in *. auto 10.
Qed.
Lemma stands_nil on w dn sh x : stands on w dn sh x -> stands on w dn (sh ++ [Fixed []]) x.
Proof.
  intros (junk & B & O & W & On & Dn & Ns). exists junk. rewrite !flat1_app, !notes_app. cbn [flat1 flat_map first_text app notes_of]. rewrite !app_nil_r. auto 10.
Qed.
Lemma bytes_stand l : Forall byte l -> forall w dn sh g notes, (w <= 4)%nat -> stands true w dn sh (g, notes) ->
  exists g', list_events (map Byte l) (g, notes) = (g', notes) /\ stands true (column w l) dn (sh ++ [Fixed (cells w l)]) (g', notes).
Proof.
  induction 1 as [|v l Hv F IH]; intros w dn sh g notes Lw Sg.
  { exists g. split; [reflexivity|]. now apply stands_nil. }
  destruct (byte_digits v Hv) as (Tv & _).
  assert (St : exists g1 w1, list_out true v g = g1 /\ (w1 <= 4)%nat /\ stands true w1 dn (sh ++ [Fixed (if Nat.eqb w 4 then row_break ++ byte_text v else byte_text v)]) (g1, notes) /\
     w1 = (if Nat.eqb w 4 then 1 else S w)%nat).
  { pose proof Sg as (junk & _ & _ & W & On & _). cbn [fst] in *. unfold list_out. rewrite On, W. cbn [andb]. destruct (Nat.eqb w 4) eqn:E.
    - apply Nat.eqb_eq in E. subst w. rewrite E. cbn [Nat.leb]. rewrite Tv. eexists _, _. split; [reflexivity|]. split; [|split; [|reflexivity]]; [lia|].
      apply stands_glue. change [Fixed row_break; Fixed (byte_text v)] with ([Fixed row_break] ++ [Fixed (byte_text v)]). rewrite app_assoc.
      apply stands_width with (w := 0%nat). apply insert_stands; [discriminate|]. apply insert_stands; [discriminate|]. now apply stands_width with (w := 4%nat); rewrite <- E.
    - apply Nat.eqb_neq in E. replace (Nat.leb 4 w) with false by (symmetry; apply Nat.leb_gt; lia). rewrite Tv. eexists _, _. split; [reflexivity|]. split; [|split; [|reflexivity]]; [lia|].
      assert (Wl : g_width (list_insert (byte_text v) g) = w) by exact W. rewrite Wl. apply stands_width with (w := w). apply insert_stands; [discriminate|]. exact Sg. }
  destruct St as (g1 & w1 & E1 & L1 & S1 & Ew). destruct (IH w1 dn _ g1 notes L1 S1) as (g' & E2 & S2). exists g'. split.
  - cbn [map list_events fold_left list_event]. rewrite E1. exact E2.
  - rewrite <- app_assoc in S2. cbn [app] in S2. apply stands_glue in S2. cbn [cells column]. destruct (Nat.eqb w 4); subst w1; [now rewrite app_assoc|exact S2].
Qed.

(** The parts of a line. *)
Fixpoint slots (w : nat) (l : list part) : list piece :=
  match l with
  | [] => []
  | Now x :: l' => Fixed (cells w x) :: slots (column w x) l'
  | Later a b :: l' => Slot w a b :: slots (column w a) l'
  end.
Lemma events_app a b x : list_events (a ++ b) x = list_events b (list_events a x).
Proof. apply fold_left_app. Qed.
Lemma parts_stand l : Forall part_ok l -> forall w dn sh g notes, (w <= 4)%nat -> stands true w dn sh (g, notes) ->
  exists x, list_events (flat_map part_events l) (g, notes) = x /\ stands true (column w (final_bytes l)) dn (sh ++ slots w l) x.
Proof.
  induction 1 as [|p l Hp F IH]; intros w dn sh g notes Lw Sg.
  { exists (g, notes). split; [reflexivity|]. now rewrite app_nil_r. }
  cbn [flat_map final_bytes slots]. rewrite events_app. fold (final_bytes l). rewrite column_app. destruct p as [x|a b]; cbn [part_events].
  - destruct (bytes_stand x Hp w dn sh g notes Lw Sg) as (g1 & -> & S1). destruct (IH (column w x) dn _ g1 notes (column_4 w x Lw) S1) as (y & -> & S2). exists y. split; [reflexivity|]. now rewrite <- app_assoc in S2.
  - destruct Hp as (L & Fa & Fb). rewrite <- (proj1 (column_length w a b L)).
    assert (S0 : stands true w dn (sh ++ [Slot w [] []]) (g, notes ++ [(g_off g, g_on g)])).
    { destruct Sg as (junk & B & O & W & On & Dn & Ns). cbn [fst snd] in *. exists junk. cbn [fst snd]. rewrite flat1_app, notes_app, map_app. cbn [flat1 flat_map first_text cells app notes_of map fst]. rewrite !app_nil_r, Nat.add_0_l. rewrite B, O, On, Ns. auto 10. }
    destruct (bytes_stand a Fa w dn _ g _ Lw S0) as (g1 & E1 & S1).
    assert (S2 : stands true (column w a) dn (sh ++ [Slot w a b]) (g1, notes ++ [(g_off g, g_on g)])).
    { destruct S1 as (junk & B & O & W & On & Dn & Ns). cbn [fst snd] in *. exists junk. cbn [fst snd]. rewrite !flat1_app, !notes_app, !map_app in *. cbn [flat1 flat_map first_text cells app notes_of map fst length] in *. rewrite !app_nil_r in *. auto 10. }
    destruct (IH (column w a) dn _ g1 _ (column_4 w a Lw) S2) as (y & E2 & S3). exists y. split; [|now rewrite <- app_assoc in S3].
    change (Wait :: map Byte a) with ([Wait] ++ map Byte a). rewrite events_app. cbn [list_events fold_left list_event] in *. fold (list_events (map Byte a)). unfold list_events in *. rewrite E1. exact E2.
Qed.
(** While the listing is off. *)
Lemma out_off v g : g_on g = false -> list_out true v g = g.
Proof. intros H. unfold list_out. now rewrite H. Qed.
Lemma bytes_off l : forall g notes, g_on g = false -> list_events (map Byte l) (g, notes) = (g, notes).
Proof. induction l as [|v l IH]; intros g notes H; [reflexivity|]. cbn [map list_events fold_left list_event]. rewrite out_off by exact H. now apply IH. Qed.
Definition hidden (o : nat) (l : list part) : list piece := flat_map (fun p => match p with Now _ => [] | Later _ b => [Hidden o b] end) l.
Lemma parts_off l : forall w dn sh g notes, stands false w dn sh (g, notes) ->
  exists notes', list_events (flat_map part_events l) (g, notes) = (g, notes') /\ stands false w dn (sh ++ hidden (g_off g) l) (g, notes').
Proof.
  induction l as [|p l IH]; intros w dn sh g notes Sg.
  { exists notes. split; [reflexivity|]. now rewrite app_nil_r. }
  assert (Off : g_on g = false) by (destruct Sg as (? & _ & _ & _ & H & _); exact H).
  cbn [flat_map hidden]. rewrite events_app. fold (hidden (g_off g) l). destruct p as [x|a b]; cbn [part_events app].
  - rewrite bytes_off by exact Off. now apply IH.
  - assert (S0 : stands false w dn (sh ++ [Hidden (g_off g) b]) (g, notes ++ [(g_off g, g_on g)])).
    { destruct Sg as (junk & B & O & W & On & Dn & Ns). cbn [fst snd] in *. exists junk. cbn [fst snd]. rewrite flat1_app, notes_app, map_app. cbn [flat1 flat_map first_text app notes_of map fst]. rewrite !app_nil_r. rewrite On, Ns. auto 10. }
    destruct (IH w dn _ g _ S0) as (notes' & E & S1). exists notes'. split; [|now rewrite <- app_assoc in S1].
    change (Wait :: map Byte a) with ([Wait] ++ map Byte a). rewrite events_app. cbn [list_events fold_left list_event]. fold (list_events (map Byte a)). unfold list_events in *. pose proof (bytes_off a g (notes ++ [(g_off g, g_on g)]) Off) as E0. unfold list_events in E0. rewrite E0. exact E.
Qed.

(** The numbers. *)
Lemma dec_len f : forall k n acc, 0 <= n < 10 ^ Z.of_nat (S k) -> (length (dec_fuel f n acc) <= S k + length acc)%nat.
Proof.
  induction f as [|f IH]; intros k n acc H; [cbn; lia|]. cbn [dec_fuel]. destruct (n / 10 =? 0) eqn:E; [cbn [length]; lia|].
  destruct k as [|k]. { exfalso. cbn in H. assert (n / 10 = 0) by (apply Z.div_small; lia). lia. }
  specialize (IH k (n / 10) ((48 + n mod 10) :: acc)). cbn [length] in IH. assert (X : 0 <= n / 10 < 10 ^ Z.of_nat (S k)).
  { split; [apply Z.div_pos; lia|]. apply Z.div_lt_upper_bound; [lia|]. replace (10 * 10 ^ Z.of_nat (S k)) with (10 ^ Z.of_nat (S (S k))); [lia|]. rewrite (Nat2Z.inj_succ (S k)), Z.pow_succ_r by lia. reflexivity. }
  specialize (IH X). lia.
Qed.
Lemma place_heading ln pc : 0 <= pc < 16777216 -> place ln pc = heading ln pc.
Proof.
  intros H. unfold place, heading, dec5. rewrite <- app_assoc. do 3 f_equal. rewrite Z.shiftr_div_pow2 by lia. change (2 ^ 16) with 65536. change 65535 with (Z.ones 16). rewrite Z.land_ones by lia. change (2 ^ 16) with 65536.
  assert (0 <= pc / 65536 < 256) by (split; [apply Z.div_pos; lia|apply Z.div_lt_upper_bound; lia]). pose proof (Z.mod_pos_bound pc 65536 ltac:(lia)).
  rewrite !hexw_fix by (cbn; lia). reflexivity.
Qed.
Lemma place_length ln pc : 0 <= ln < 100000 -> 0 <= pc < 16777216 -> length (place ln pc ++ [32]) = 14%nat.
Proof.
  intros H1 H2. rewrite place_heading by exact H2. unfold heading. rewrite !app_length. cbn [length]. rewrite repeat_length.
  assert (L : (length (dec ln) <= 5)%nat). { unfold dec. replace (ln <? 0) with false by lia. unfold decmin. pose proof (dec_len (S (Z.to_nat (Z.log2 ln))) 4 ln []). cbn [length] in H. assert (10 ^ Z.of_nat 5 = 100000) by reflexivity. lia. }
  assert (X : forall w n, length (hexfix w n) = w). { induction w as [|w IH]; intros n; [reflexivity|]. cbn [hexfix]. rewrite app_length, IH. cbn. lia. }
  rewrite !X. lia.
Qed.

(** The end of a line. *)
Lemma pad_stands : forall f w dn sh g notes, (4 - w <= f)%nat -> (w <= 4)%nat -> stands true w dn sh (g, notes) -> stands true 4 dn (sh ++ [Fixed (missing w)]) (list_pad f g, notes).
Proof.
  induction f as [|f IH]; intros w dn sh g notes Lf Lw Sg.
  - assert (w = 4%nat) as -> by lia. cbn [list_pad missing]. now apply stands_nil.
  - cbn [list_pad]. assert (W : g_width g = w) by (destruct Sg as (? & _ & _ & H & _); exact H). rewrite W. destruct (Nat.ltb w 4) eqn:E.
    + apply Nat.ltb_lt in E. assert (S1 : stands true (S w) dn (sh ++ [Fixed (zs "-  ")]) (set_width (S w) (list_insert (zs "-  ") g), notes)).
      { apply stands_width with (w := w). apply insert_stands; [discriminate|exact Sg]. }
      pose proof (IH (S w) dn _ _ _ ltac:(lia) ltac:(lia) S1) as S2. rewrite <- app_assoc in S2. cbn [app] in S2. apply stands_glue in S2.
      replace (missing w) with (zs "-  " ++ missing (S w)); [exact S2|]. unfold missing. replace (4 - w)%nat with (S (4 - S w)) by lia. reflexivity.
    + apply Nat.ltb_ge in E. assert (w = 4%nat) as -> by lia. cbn [missing]. now apply stands_nil.
Qed.
Lemma next_last (final : bool) (t ptr : text) : (if final then last_line t else lineish t) -> (final = true -> ptr = []) -> skip_to_next_line (t ++ ptr) = ptr /\ t <> [].
Proof.
  assert (Li : lineish t -> skip_to_next_line (t ++ ptr) = ptr /\ t <> []).
  { intros L. split; [now apply lineish_next|]. destruct L as (b & cr & -> & _). destruct b, cr; discriminate. }
  destruct final; [|intros L _; now apply Li]. intros [L|(N & Nb)] E; [now apply Li|]. split; [|exact N]. rewrite (E eq_refl), app_nil_r.
  unfold skip_to_next_line. assert (X : to_line_break t = []). { clear N Li E. induction Nb as [|c t (H1 & H2) Nb IH]; [reflexivity|]. cbn. replace (c =? 10) with false by lia. replace (c =? 13) with false by lia. cbn. exact IH. }
  rewrite X. reflexivity.
Qed.
Lemma seg_before (a b : text) : seg (a ++ b) b = a.
Proof. unfold seg. rewrite app_length. replace (Nat.leb _ _) with true by (symmetry; apply Nat.leb_le; lia). replace (length a + length b - length b)%nat with (length a) by lia. apply firstn_at. Qed.
Lemma last_cons {A} (x : A) l d : last (x :: l) d = last l x.
Proof. revert x d. induction l as [|y l IH]; intros x d; [reflexivity|]. change (last (x :: y :: l) d) with (last (y :: l) d). now rewrite (IH y d), (IH y x). Qed.
Lemma lines_stand (final : bool) (pc : Z) (ptr : text) : 0 <= pc < 16777216 -> (final = true -> ptr = []) -> forall l t old sh g notes fuel, lines_ok final t l -> (length l < fuel)%nat -> stands true 4 false sh (g, notes) ->
  exists pre g', list_lines fuel old pc (List.concat (t :: l) ++ ptr) ptr g = (g', last l t ++ ptr) /\ pre ++ last l t = t ++ further (old + 1) pc l /\
    stands true 4 false (sh ++ [Fixed pre]) (g', notes) /\ last l t <> [].
Proof.
  intros Hpc Hf. induction l as [|t' l IH]; intros t old sh g notes fuel O Lf Sg; (destruct fuel as [|fuel]; [cbn in Lf; lia|]).
  - cbn [lines_ok] in O. destruct (next_last final t ptr O Hf) as (E & N). exists [], g. cbn [List.concat list_lines last further app]. rewrite app_nil_r, E, Nat.ltb_irrefl. split; [reflexivity|]. split; [reflexivity|]. split; [now apply stands_nil|exact N].
  - destruct O as (L & O). cbn [length] in Lf.
    assert (Sk : skip_to_next_line (List.concat (t :: t' :: l) ++ ptr) = List.concat (t' :: l) ++ ptr). { cbn [List.concat]. rewrite <- app_assoc. now apply lineish_next. }
    assert (Ne : t <> []) by (destruct L as (b & cr & -> & _); destruct b, cr; discriminate).
    assert (Gt : Nat.ltb (length ptr) (length (List.concat (t' :: l) ++ ptr)) = true).
    { apply Nat.ltb_lt. rewrite app_length. cbn [List.concat]. rewrite app_length. assert (0 < length t')%nat; [|lia]. destruct l as [|u l]; cbn [lines_ok] in O.
      - destruct (next_last final t' ptr O Hf) as (_ & N). destruct t'; [congruence|cbn; lia].
      - destruct O as ((b & cr & -> & _) & _). rewrite app_length. destruct cr; cbn; lia. }
    assert (Sgm : seg (List.concat (t :: t' :: l) ++ ptr) (List.concat (t' :: l) ++ ptr) = t).
    { cbn [List.concat]. rewrite <- app_assoc. apply seg_before. }
    cbn [list_lines]. rewrite Sk, Gt, Sgm. rewrite place_heading by exact Hpc.
    assert (S1 : stands true 4 false (sh ++ [Fixed (t ++ heading (old + 1) pc ++ repeat 32 13)]) (list_insert (heading (old + 1) pc ++ repeat 32 13) (list_insert t g), notes)).
    { apply stands_glue. change [Fixed t; Fixed (heading (old + 1) pc ++ repeat 32 13)] with ([Fixed t] ++ [Fixed (heading (old + 1) pc ++ repeat 32 13)]). rewrite app_assoc. apply insert_stands; [|now apply insert_stands].
      intros X. apply (f_equal (@length Z)) in X. rewrite app_length, repeat_length in X. cbn in X. lia. }
    destruct (IH t' (old + 1) _ _ notes fuel O ltac:(lia) S1) as (pre & g' & E & Ep & S2 & N). exists ((t ++ heading (old + 1) pc ++ repeat 32 13) ++ pre), g'.
    rewrite last_cons. split; [exact E|]. split; [|split; [|exact N]].
    + rewrite <- app_assoc, Ep. cbn [further]. now rewrite <- !app_assoc.
    + rewrite <- app_assoc in S2. cbn [app] in S2. now apply stands_glue in S2.
Qed.

Definition line_end (t : text) : text := if last t 0 =? 10 then [] else [10].
Lemma lines_count final t l : lines_ok final t l -> (length l < length (List.concat (t :: l)))%nat.
Proof.
  revert t. induction l as [|u l IH]; intros t O; cbn [lines_ok] in O.
  - cbn [List.concat length]. rewrite app_nil_r. destruct (next_last final t [] O (fun _ => eq_refl)) as (_ & N). destruct t; [congruence|cbn; lia].
  - destruct O as (L & O). specialize (IH u O). change (List.concat (t :: u :: l)) with (t ++ List.concat (u :: l)). rewrite app_length. assert (0 < length t)%nat; [|cbn [length]; lia]. destruct L as (b & cr & -> & _). rewrite app_length. destruct cr; cbn; lia.
Qed.
Lemma end_stands final pc ptr t l old w sh g notes : 0 <= pc < 16777216 -> (final = true -> ptr = []) -> lines_ok final t l -> (w <= 4)%nat -> stands true w false sh (g, notes) ->
  stands true 4 false (sh ++ [Fixed (missing w ++ t ++ further (old + 1) pc l ++ line_end (last l t))]) (list_end old pc (List.concat (t :: l) ++ ptr) ptr g, notes).
Proof.
  intros Hpc Hf O Lw Sg. unfold list_end. pose proof (pad_stands 4 w false sh g notes ltac:(lia) Lw Sg) as S1. pose proof (lines_count final t l O) as Lc.
  destruct (lines_stand final pc ptr Hpc Hf l t old _ _ notes (length (List.concat (t :: l) ++ ptr)) O ltac:(rewrite app_length; lia) S1) as (pre & g' & E & Ep & S2 & N).
  rewrite E, seg_before. pose proof (insert_stands _ _ _ _ _ _ _ N S2) as S3.
  rewrite <- !app_assoc in S3. cbn [app] in S3. change [Fixed (missing w); Fixed pre; Fixed (last l t)] with ([Fixed (missing w)] ++ [Fixed pre; Fixed (last l t)]) in S3. rewrite app_assoc in S3. apply stands_glue in S3. rewrite Ep in S3. rewrite <- app_assoc in S3. apply stands_glue in S3.
  rewrite (app_assoc t), (app_assoc (missing w)). unfold line_end. destruct (last (last l t) 0 =? 10).
  - rewrite app_nil_r. exact S3.
  - apply stands_glue. change [Fixed (missing w ++ t ++ further (old + 1) pc l); Fixed [10]] with ([Fixed (missing w ++ t ++ further (old + 1) pc l)] ++ [Fixed [10]]). rewrite app_assoc. apply insert_stands; [discriminate|exact S3].
Qed.

(** ** Lines *)
Lemma slots_final l : Forall part_ok l -> forall w, flat2 (slots w l) = cells w (final_bytes l).
Proof.
  induction 1 as [|p l Hp F IH]; intros w; [reflexivity|]. cbn [slots final_bytes flat_map]. fold (final_bytes l). rewrite cells_app. destruct p as [x|a b]; cbn [flat2 flat_map second_text]; fold flat2.
  - now rewrite <- IH.
  - destruct Hp as (L & _). rewrite <- (proj1 (column_length w a b L)). now rewrite <- IH.
Qed.
Definition good (p : piece) : Prop := piece_ok p /\ match p with Slot _ a _ => Forall byte a | _ => True end.
Lemma slots_good l : Forall part_ok l -> forall w, Forall good (slots w l).
Proof.
  induction 1 as [|p l Hp F IH]; intros w; [apply Forall_nil|]. destruct p as [x|a b]; cbn [slots]; (apply Forall_cons; [|apply IH]); unfold good; cbn; [auto|]. cbn in Hp. tauto.
Qed.
Definition values (l : list piece) : list (list Z) := flat_map (fun p => match p with Fixed _ => [] | Slot _ _ b => [b] | Hidden _ b => [b] end) l.
Lemma notes_values l : forall pos, map snd (notes_of pos l) = values l.
Proof. induction l as [|p l IH]; intros pos; [reflexivity|]. destruct p; cbn [notes_of values flat_map app map snd]; rewrite IH; reflexivity. Qed.
Lemma slots_values l : forall w, values (slots w l) = values_of (Gives l).
Proof. induction l as [|p l IH]; intros w; [reflexivity|]. destruct p; cbn; [apply IH|]. f_equal. apply IH. Qed.
Lemma hidden_values o l : values (hidden o l) = values_of (Gives l) /\ flat2 (hidden o l) = [] /\ Forall good (hidden o l).
Proof.
  induction l as [|p l (IH1 & IH2 & IH3)]; [split; [|split]; [reflexivity|reflexivity|apply Forall_nil]|]. destruct p; [now split; [|split]|]. cbn. split; [f_equal; exact IH1|]. split; [exact IH2|].
  apply Forall_cons; [now split|exact IH3].
Qed.
Definition next_on (on : bool) (x : effect) : bool := match x with Gives _ => on | Lists => true | ListsNot => false end.
Definition gives (on : bool) (e : entry) : text :=
  match n_does e with Gives p => if on then shown e p else [] | Lists => if on then shown e [] else [] | ListsNot => [] end.
Lemma listed_cons on e l : listed on (e :: l) = gives on e ++ listed (next_on on (n_does e)) l.
Proof. cbn [listed]. unfold gives, next_on. now destruct (n_does e). Qed.
Lemma begin_on ln pc w dn sh g notes : 0 <= pc < 16777216 -> stands true w dn sh (g, notes) -> stands true 0 false (sh ++ [Fixed (heading ln pc ++ [32])]) (list_begin ln pc g, notes).
Proof.
  intros Hpc (junk & B & O & W & On & Dn & Ns). unfold list_begin. cbn [g_on set_done set_width fst] in *. rewrite On, place_heading by exact Hpc.
  apply insert_stands; [intros X; apply app_eq_nil in X as (_ & X); discriminate|]. exists junk. cbn. auto 10.
Qed.
Lemma begin_off ln pc w dn sh g notes : stands false w dn sh (g, notes) -> stands false 0 false sh (list_begin ln pc g, notes).
Proof. intros (junk & B & O & W & On & Dn & Ns). unfold list_begin. cbn [g_on set_done set_width fst snd] in *. rewrite On. exists junk. cbn. auto 10. Qed.
(** One round adds what the entry shows. *)
Lemma round_stands final e ptr on w dn sh x : entry_ok final e -> (final = true -> ptr = []) -> stands on w dn sh x ->
  exists sh' w' dn', stands (next_on on (n_does e)) w' dn' (sh ++ sh') (list_round x (mkround (n_line e) (n_pc e) (n_after e) (List.concat (all_lines e) ++ ptr) ptr (events_of (n_does e)))) /\
    flat2 sh' = gives on e /\ values sh' = values_of (n_does e) /\ Forall good sh'.
Proof.
  destruct x as [g notes]. intros (Hl & Hm & Hpc & Hpa & O & P) Hf Sg. unfold list_round, gives. cbn [u_line u_pc u_after u_start u_ptr u_events].
  assert (Fx : forall t, Forall good [Fixed t]) by (intros t; apply Forall_cons; [now split|apply Forall_nil]).
  destruct (n_does e) as [l| |] eqn:D; cbn [events_of next_on]; destruct on.
  - pose proof (begin_on (n_line e) (n_pc e) w dn sh g notes Hpc Sg) as S0. destruct (parts_stand l P 0 false _ _ _ ltac:(lia) S0) as ([g1 n1] & -> & S1).
    pose proof S1 as (junk & _ & _ & _ & On & Dn & _). cbn [fst] in On, Dn. rewrite On, Dn. cbn [andb negb].
    pose proof (end_stands final (n_after e) ptr (n_text e) (n_more e) (n_line e) _ _ _ _ Hpa Hf O (column_4 0 (final_bytes l) ltac:(lia)) S1) as S2.
    rewrite <- !app_assoc in S2. eexists _, _, _. split; [exact S2|]. split; [|split].
    + cbn [app]. change (flat2 (Fixed ?t :: ?r)) with (t ++ flat2 r). unfold flat2. cbn [flat_map second_text]. fold flat2. rewrite flat_map_app. change (flat_map second_text (slots 0 l)) with (flat2 (slots 0 l)). rewrite slots_final by exact P.
      cbn [flat_map second_text]. unfold shown, line_end. rewrite app_nil_r, <- !app_assoc. reflexivity.
    + unfold values. cbn [app flat_map]. rewrite flat_map_app. cbn [flat_map]. rewrite app_nil_r. exact (slots_values l 0).
    + cbn [app]. apply Forall_cons; [now split|]. apply Forall_app. split; [now apply slots_good|apply Fx].
  - pose proof (begin_off (n_line e) (n_pc e) w dn sh g notes Sg) as S0. destruct (parts_off l 0 false _ _ _ S0) as (n1 & -> & S1).
    pose proof S1 as (junk & _ & _ & _ & On & Dn & _). cbn [fst] in On, Dn. rewrite On. cbn [andb]. destruct (hidden_values (g_off (list_begin (n_line e) (n_pc e) g)) l) as (V1 & V2 & V3). eexists _, _, _. split; [exact S1|]. auto.
  - pose proof (begin_on (n_line e) (n_pc e) w dn sh g notes Hpc Sg) as S0. cbn [list_events fold_left list_event].
    pose proof S0 as (junk & B & Of & W & On & Dn & Ns). cbn [fst snd] in B, Of, W, On, Dn, Ns. rewrite On. cbn [g_on set_on]. change (g_done (set_on true ?g)) with (g_done g). rewrite Dn. cbn [andb negb].
    assert (S1 : stands true 0 false (sh ++ [Fixed (heading (n_line e) (n_pc e) ++ [32])]) (set_on true (list_begin (n_line e) (n_pc e) g), notes)) by (exists junk; cbn; auto 10).
    pose proof (end_stands final (n_after e) ptr (n_text e) (n_more e) (n_line e) _ _ _ _ Hpa Hf O (Nat.le_0_l 4) S1) as S2. rewrite <- app_assoc in S2. cbn [app] in S2.
    apply stands_glue in S2. eexists _, _, _. split; [exact S2|]. split; [|split; [reflexivity|apply Fx]].
    unfold flat2. cbn [flat_map second_text]. rewrite app_nil_r. unfold shown, line_end. cbn [final_bytes flat_map cells column app]. rewrite <- !app_assoc. reflexivity.
  - pose proof (begin_off (n_line e) (n_pc e) w dn sh g notes Sg) as S0. cbn [list_events fold_left list_event].
    pose proof S0 as (junk & B & Of & W & On & Dn & Ns). cbn [fst snd] in B, Of, W, On, Dn, Ns. rewrite On. cbn [g_on g_done set_on set_done andb negb].
    exists [], 0%nat, true. rewrite app_nil_r. split; [exists junk; cbn; auto 10|]. split; [reflexivity|]. split; [reflexivity|apply Forall_nil].
  - pose proof (begin_on (n_line e) (n_pc e) w dn sh g notes Hpc Sg) as S0. cbn [list_events fold_left list_event].
    pose proof S0 as (junk & B & Of & W & On & Dn & Ns). cbn [fst snd] in B, Of, W, On, Dn, Ns. rewrite On. cbn [g_on set_on andb].
    exists [], 0%nat, false. rewrite app_nil_r. split; [|split; [reflexivity|split; [reflexivity|apply Forall_nil]]].
    rewrite flat1_app in B, Of. cbn [flat1 flat_map first_text] in B, Of. rewrite app_nil_r in B, Of. fold flat1 in B, Of.
    exists ((heading (n_line e) (n_pc e) ++ [32]) ++ junk). cbn [fst snd set_on set_off g_buf g_off g_width g_on g_done]. rewrite B, Of, <- app_assoc. split; [reflexivity|]. split.
    { rewrite app_length. rewrite <- place_heading by exact Hpc. rewrite place_length by lia. lia. }
    split; [exact W|]. split; [reflexivity|]. split; [exact Dn|]. rewrite Ns, notes_app. cbn [notes_of]. now rewrite app_nil_r.
  - pose proof (begin_off (n_line e) (n_pc e) w dn sh g notes Sg) as S0. cbn [list_events fold_left list_event].
    pose proof S0 as (junk & B & Of & W & On & Dn & Ns). cbn [fst snd] in B, Of, W, On, Dn, Ns. rewrite On. cbn [g_on g_done set_on set_done andb negb].
    exists [], 0%nat, false. rewrite app_nil_r. split; [exists junk; cbn; auto 10|]. split; [reflexivity|]. split; [reflexivity|apply Forall_nil].
Qed.
Lemma rounds_stand l : entries_ok l -> forall on w dn sh x, stands on w dn sh x ->
  exists sh' on' w' dn', stands on' w' dn' (sh ++ sh') (fold_left list_round (rounds_of l) x) /\ flat2 sh' = listed on l /\ values sh' = flat_map (fun e => values_of (n_does e)) l /\ Forall good sh'.
Proof.
  induction l as [|e l IH]; intros O on w dn sh x Sg.
  - exists [], on, w, dn. rewrite app_nil_r. split; [exact Sg|]. split; [reflexivity|]. split; [reflexivity|apply Forall_nil].
  - destruct O as (Oe & O). destruct (round_stands _ e (text_of l) on w dn sh x Oe) as (s1 & w1 & d1 & S1 & F1 & V1 & G1); [intros X; destruct l; [reflexivity|discriminate]|exact Sg|].
    destruct (IH O _ _ _ _ _ S1) as (s2 & on' & w2 & d2 & S2 & F2 & V2 & G2). exists (s1 ++ s2), on', w2, d2. rewrite app_assoc. split; [exact S2|]. split; [rewrite flat2_app, F1, F2; symmetry; apply listed_cons|]. split.
    + cbn [flat_map]. rewrite <- V1, <- V2. apply flat_map_app.
    + now apply Forall_app.
Qed.
Lemma combine_split {A B} (l : list (A * B)) : combine (map fst l) (map snd l) = l.
Proof. induction l as [|[a b] l IH]; [reflexivity|]. cbn. now rewrite IH. Qed.

(** *** C67: what is in a listing *)
(** However lines with bytes at once and bytes from the second pass, lines that belong together,
    [.list] and [.nolist] follow each other: the listing shows every line that is not between
    [.nolist] and [.list], with its number, its address, its final bytes and its text. *)
Theorem c67_listing_partial l : entries_ok l -> list_all (rounds_of l) (flat_map (fun e => values_of (n_does e)) l) = listed true l.
Proof.
  intros O. unfold list_all, list_first. assert (S0 : stands true 0 false [] (listing0, [])) by (exists []; cbn; auto 10).
  destruct (rounds_stand l O _ _ _ _ _ S0) as (sh & on & w & dn & S1 & F & V & G). cbn [app] in S1. destruct (fold_left list_round (rounds_of l) (listing0, [])) as [g notes].
  destruct S1 as (junk & B & Of & _ & _ & _ & Ns). cbn [fst snd] in *. unfold list_second, list_file. cbn [set_off g_off g_buf]. rewrite <- V, Ns, <- (notes_values sh 0), combine_split.
  assert (G1 : Forall piece_ok sh) by (eapply Forall_impl; [|exact G]; now intros p (H & _)).
  assert (G2 : Forall (fun p => match p with Slot _ a _ => Forall byte a | _ => True end) sh) by (eapply Forall_impl; [|exact G]; now intros p (_ & H)).
  pose proof (fill_pieces sh G1 G2 [] junk g B) as E. cbn [app length] in E. rewrite E, Of. replace (length (flat1 sh)) with (length (flat2 sh)); [rewrite firstn_at; exact F|].
  clear -G1. induction G1 as [|p l Hp _ IH]; [reflexivity|]. cbn [flat1 flat2 flat_map]. rewrite !app_length. f_equal; [|exact IH]. destruct p as [t|w a b|]; [reflexivity| |reflexivity]. cbn. destruct Hp as (L & _). symmetry. apply (column_length w a b L).
Qed.

Example listing_example :
  let l := [mkentry 1 0x9D93 0x9D93 (zs " .org $9D93" ++ [10]) [] (Gives []);
            mkentry 2 0x9D93 0x9D98 (zs " .db 1,2,3" ++ [10]) [] (Gives [Now [1; 2; 3]]);
            mkentry 3 0x9D96 0x9D9A (zs " .dw later,7" ++ [13; 10]) [] (Gives [Later [0; 0] [0x9A; 0x9D]; Now [7; 0]]);
            mkentry 4 0x9D9A 0x9D9A (zs "#macro m" ++ [10]) [zs " nop" ++ [10]; zs "#endmacro" ++ [10]] (Gives []);
            mkentry 7 0x9D9A 0x9D9A (zs " .nolist" ++ [10]) [] ListsNot;
            mkentry 8 0x9D9A 0x9D9D (zs " jp later" ++ [10]) [] (Gives [Now [0xC3]; Later [0; 0] [0x9A; 0x9D]]);
            mkentry 9 0x9D9D 0x9D9D (zs " .list" ++ [10]) [] Lists;
            mkentry 10 0x9D9D 0x9D9D (zs " .db 1,2,3,later,5") [] (Gives [Now [1; 2; 3]; Later [0; 0] [0x9A; 0x9D]; Now [5]])]%Z in
  entries_ok l /\ list_all (rounds_of l) (flat_map (fun e => values_of (n_does e)) l) = listed true l.
Proof.
  cbn zeta. match goal with |- entries_ok ?l /\ _ => assert (O : entries_ok l); [|split; [exact O|exact (c67_listing_partial l O)]] end.
  assert (Li : forall t, existsb (fun c => (c =? 10) || (c =? 13)) t = false -> no_break t).
  { intros t H. apply Forall_forall. intros c Hc. assert (X : ((c =? 10) || (c =? 13)) = false); [|lia]. destruct ((c =? 10) || (c =? 13)) eqn:E; [|reflexivity]. rewrite <- H. symmetry. apply existsb_exists. now exists c. }
  assert (L1 : forall t, existsb (fun c => (c =? 10) || (c =? 13)) t = false -> lineish (t ++ [10])) by (intros t H; exists t, false; split; [reflexivity|now apply Li]).
  assert (L2 : forall t, existsb (fun c => (c =? 10) || (c =? 13)) t = false -> lineish (t ++ [13; 10])) by (intros t H; exists t, true; split; [reflexivity|now apply Li]).
  assert (By : forall l, forallb (fun b => (0 <=? b) && (b <=? 255)) l = true -> Forall byte l).
  { intros l H. apply Forall_forall. intros b Hb. rewrite forallb_forall in H. specialize (H b Hb). unfold byte. lia. }
  cbn [entries_ok]. unfold entry_ok. cbn [n_line n_pc n_after n_text n_more n_does lines_ok length].
  repeat match goal with
    | |- _ /\ _ => split
    | |- lineish (_ ++ [10]) => apply L1; reflexivity
    | |- lineish (_ ++ [13; 10]) => apply L2; reflexivity
    | |- last_line _ => right; split; [discriminate|apply Li; reflexivity]
    | |- Forall part_ok _ => repeat (apply Forall_cons; [cbn [part_ok]; repeat (split; [reflexivity|]); try (apply By; reflexivity); split; apply By; reflexivity|]); apply Forall_nil
    | |- True => exact I
    | |- _ => lia
    end.
Qed.
Example listing_text :
  listed true [mkentry 1 0x9D93 0x9D98 (zs " .db 1,2,3,later" ++ [10]) [] (Gives [Now [1; 2; 3]; Later [0; 0] [0x98; 0x9D]])]
  = zs "    1 00:9D93 01 02 03 98 " ++ [10] ++ zs "              9D -  -  -   .db 1,2,3,later" ++ [10].
Proof. vm_compute. reflexivity. Qed.
(** From line 100000 on, [.nolist] takes back one character too few: the listing keeps the start of
    a line that is not shown. *)
Theorem c67_long_numbers_refuted :
  ~ (forall l, Forall (fun e => 0 <= n_line e /\ 0 <= n_pc e < 16777216 /\ n_more e = [] /\ lineish (n_text e)) l ->
     list_all (rounds_of l) (flat_map (fun e => values_of (n_does e)) l) = listed true l).
Proof.
  intros H. specialize (H [mkentry 100000 0 0 (zs " .nolist" ++ [10]) [] ListsNot]). assert (X : list_all (rounds_of [mkentry 100000 0 0 (zs " .nolist" ++ [10]) [] ListsNot]) [] = []).
  { apply H. apply Forall_cons; [|apply Forall_nil]. cbn [n_line n_pc n_more n_text]. split; [lia|]. split; [lia|]. split; [reflexivity|]. exists (zs " .nolist"), false. split; [reflexivity|]. vm_compute. repeat (apply Forall_cons; [lia|]). apply Forall_nil. }
  vm_compute in X. discriminate X.
Qed.
Print Assumptions c67_listing_partial.
Print Assumptions c67_long_numbers_refuted.
