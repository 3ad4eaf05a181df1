(** C77: a run that ends is the same for every build of the assembler. *)
From Verif Require Import Base BaseProofs State UtilsModel ErrorsModel StorageModel ParserModel PassTwoModel
  BitmapModel PreopModel PassOneModel DirectiveModel Knot ExportModel MainModel MonadProofs EnvProofs Validate.

Lemma knot_alike C C' n n' : alike C C' -> (n <= n')%nat -> fle (knot C n) (knot C' n').
Proof.
  intros A. revert n'. induction n as [|n IH]; intros n' Hn.
  - split; intros; simpl; try lia; apply le_nofuel.
  - destruct n' as [|n']; [lia|]. assert (F : fle (knot C n) (knot C' n')) by (apply IH; lia). clear IH.
    change (knot C (S n)) with
      (let R := knot C n in
       mkfns (S n) (parse_num_full C R) (eval C R) (expand_expr_full C R) (handle_preop C R)
         (handle_preop_if R) (run_first_pass_line C R) (run_first_pass C R) (parse_emit_string C R)).
    change (knot C' (S n')) with
      (let R := knot C' n' in
       mkfns (S n') (parse_num_full C' R) (eval C' R) (expand_expr_full C' R) (handle_preop C' R)
         (handle_preop_if R) (run_first_pass_line C' R) (run_first_pass C' R) (parse_emit_string C' R)).
    split; intros; cbn [f_n f_full f_eval f_expand f_preop f_if f_line f_pass f_emit].
    + lia.
    + now apply parse_num_full_le.
    + now apply eval_le.
    + now apply expand_expr_full_le.
    + now apply handle_preop_le.
    + now apply handle_preop_if_le.
    + now apply run_first_pass_line_le.
    + now apply run_first_pass_le.
    + now apply parse_emit_string_le.
Qed.

(** Another build of the assembler in the same surroundings: the files, the directory and the
    digest are the same; the random numbers and the effect of signed overflow need not be. *)
Definition other_build (w w' : world) : Prop :=
  w_files w' = w_files w /\ w_cwd w' = w_cwd w /\ w_md5 w' = w_md5 w.

Lemma arg_define_same w w' a d : other_build w w' -> arg_define w' a d = arg_define w a d.
Proof.
  intros (F & _ & M). destruct w as [fi ra cw md wr], w' as [fi' ra' cw' md' wr']. cbn [w_files w_md5] in F, M. subst. reflexivity.
Qed.
Lemma read_args_same w w' : other_build w w' -> forall n l a, (length l <= n)%nat -> read_args w' a l = read_args w a l.
Proof.
  intros B. induction n as [|n IH]; intros l a L; [destruct l; [reflexivity|simpl in L; lia]|].
  destruct l as [|x l]; [reflexivity|]. cbn [read_args]. simpl length in L.
  repeat match goal with
  | |- (if ?b then _ else _) = (if ?b then _ else _) => destruct b
  | |- (match ?x with _ => _ end) = (match ?x with _ => _ end) => destruct x eqn:?
  | |- read_args w' _ _ = read_args w _ _ => apply IH; subst; simpl length in *; lia
  | |- context [arg_define w' _ _] => rewrite (arg_define_same w w' _ _ B)
  | |- ?x = ?x => reflexivity
  end.
Qed.

(** Whatever the program: if a build whose signed overflow is undefined comes to an end, and no
    random number was asked for on the way, then every other build with any random numbers and
    any effect of overflow ends with the same status, files and state. *)
Theorem c77_same_for_every_build n n' w w' argv status files s :
  w_wrap w = false -> other_build w w' -> (n <= n')%nat ->
  main n w argv = Done status files (Some s) -> s_randn s = 0%nat ->
  main n' w' argv = Done status files (Some s).
Proof.
  intros Hw B Hn E Hr. unfold main in *. destruct argv as [|a0 argv]; [discriminate|].
  rewrite (read_args_same w w' B (length (a0 :: argv))) by apply Nat.le_refl.
  destruct (read_args w args0 (a0 :: argv)) as [a|c|u]; try discriminate.
  destruct (a_input a) as [input|]; [|discriminate].
  set (out := match a_output a with Some o => o | None => _ end) in *.
  set (defs := match a_defs a with Some d => d | None => _ end) in *.
  set (s0 := init_state _ _ _ _) in *.
  destruct B as (F & Cw & M5).
  assert (A : alike (mkconf w a) (mkconf w' a)).
  { split; cbn [mkconf c_wrap c_normal c_counter c_symtable c_list c_ez80 c_case c_files c_cwd c_md5]; try assumption; try reflexivity.
    now rewrite Cw. }
  pose proof (run_assembly_le (mkconf w a) (mkconf w' a) _ _ A (knot_alike _ _ n n' A Hn) (a_line a) out s0) as L.
  assert (Z0 : s_randn s0 = 0%nat) by reflexivity.
  destruct (run_assembly (mkconf w a) _ _ _ s0) as [c s1|c s1|u|]; try discriminate; injection E as <- <- <-;
    destruct L as (_ & L); rewrite L by congruence; reflexivity.
Qed.
Print Assumptions c77_same_for_every_build.

(** A build that stops at signed overflow, and one that wraps around and has other random
    numbers. *)
Definition strict_world (l : list (text * list Z)) : world :=
  mkworld (files_of l) (fun _ => 7) (zs "/w") (fun _ => repeat 0 16) false.
Definition loose_world (l : list (text * list Z)) : world :=
  mkworld (files_of l) (fun n => Z.of_nat n + 65) (zs "/w") (fun _ => repeat 0 16) true.
Definition src_of (l : list string) : list Z := concat (map (fun x => zs x ++ [10]) l).
Definition seen (o : outcome) : option (Z * list (text * list Z) * nat) :=
  match o with Done c f (Some s) => Some (c, f, s_randn s) | _ => None end.
Definition calm_src : list Z :=
  src_of ["start: ld hl, there + 2147483640 - $7FFFFFF8"; " .db 'x', '\n', -2147483647-1 & $FF"; "there: jr start"]%string.

(** The theorem applies to a program that works at the edge of the numbers. *)
Example c77_case :
  other_build (strict_world [(zs "a.asm", calm_src)]) (loose_world [(zs "a.asm", calm_src)]) /\
  seen (main 60 (strict_world [(zs "a.asm", calm_src)]) [zs "a.asm"; zs "a.bin"]) =
    Some (0, [(zs "a.bin", [33; 6; 0; 120; 10; 0; 24; 248])], 0%nat).
Proof. split; [repeat split|vm_compute; reflexivity]. Qed.

(** Neither condition can be left out: overflow is undefined in one build and wraps around in the
    other; and '\#' is a random byte. *)
Definition over_src : list Z := src_of [" .db (2147483647 + 1) >> 24"]%string.
Definition dice_src : list Z := src_of [" .db '\#', '\#'"]%string.
Example c77_needed :
  main 60 (strict_world [(zs "a.asm", over_src)]) [zs "a.asm"; zs "a.bin"] = Crash UB_overflow /\
  seen (main 60 (loose_world [(zs "a.asm", over_src)]) [zs "a.asm"; zs "a.bin"]) = Some (0, [(zs "a.bin", [128])], 0%nat) /\
  seen (main 60 (strict_world [(zs "a.asm", dice_src)]) [zs "a.asm"; zs "a.bin"]) = Some (0, [(zs "a.bin", [7; 7])], 2%nat) /\
  seen (main 60 (loose_world [(zs "a.asm", dice_src)]) [zs "a.asm"; zs "a.bin"]) = Some (0, [(zs "a.bin", [65; 66])], 2%nat).
Proof. split; [|split; [|split]]; vm_compute; reflexivity. Qed.
