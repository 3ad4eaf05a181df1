(** Theorems about the size of instructions and the eZ80 suffixes (C10, C36). *)
From Verif Require Import Base BaseProofs State UtilsModel ErrorsModel StorageModel ParserModel PassTwoModel
  PreopModel PassOneModel DirectiveModel Knot MainModel OpcodeTables MonadProofs UtilsSpec UtilsProofs StorageProofs ParserProofs
  PassTwoSpec PassTwoProofs EvalSpec EvalProofs FrameProofs SecondProofs ResolveProofs InstrSpec InstrProofs Validate Programs.

(** ** C10 *)
(** What the tables declare: opcode bytes, operand bytes, trailing byte. *)
Theorem c10_tables : forall o i, In o (opcode_list ++ opcode_list_ez80) -> In i (op_instrs o) ->
  i_size i = zlen (firstn (Z.to_nat (i_size0 i)) (i_data i)) + operands_width false (i_args i) + (if i_has_end i then 1 else 0).
Proof.
  intros o i Ho Hi.
  assert (K : forallb (fun o => forallb (fun i => i_size i =? zlen (firstn (Z.to_nat (i_size0 i)) (i_data i)) +
    operands_width false (i_args i) + (if i_has_end i then 1 else 0)) (op_instrs o)) (opcode_list ++ opcode_list_ez80) = true) by (vm_compute; reflexivity).
  rewrite forallb_forall in K. specialize (K o Ho). rewrite forallb_forall in K. specialize (K i Hi). now apply Z.eqb_eq in K.
Qed.
Print Assumptions c10_tables.

(** Assembling an instruction with either built-in table: whatever the operands, their values,
    the suffix and the mode, the address counter and the output position advance by the same
    number of bytes, or a problem is recorded.  (No '#' in the text; -O, which emits nothing,
    excluded.) *)
Theorem c10_counter C n base p ops suffix s :
  c_normal C = true -> inv s -> clean base -> clean p -> incl ops (opcode_list ++ opcode_list_ez80) ->
  match handle_opcode C (knot C n) base p ops suffix s with
  | Ok _ s' => (exists k, 0 <= k /\ s_pos s' = s_pos s + k /\ s_pc s' = (s_pc s + k) mod 2 ^ 32) \/
      (length (s_errs s) < length (s_errs s'))%nat
  | Exit _ _ => False
  | _ => True
  end.
Proof.
  intros Hn Hs Hb Hp Ho. apply handle_opcode_counts; auto. apply Forall_forall. intros o H. apply Forall_forall. intros i Hi.
  apply (c10_tables o i); auto.
Qed.
Print Assumptions c10_counter.

(** How many bytes: one for the suffix, then the row's own, immediates being three bytes wide
    when the mode asks for it. *)
Theorem c10_size C n i args suffix s :
  c_normal C = true -> inv s -> Forall (fun a => clean (seg (fst a) (snd a))) args ->
  In i (concat (map op_instrs (opcode_list ++ opcode_list_ez80))) ->
  match write_instruction_data C (knot C n) i args suffix s with
  | Ok size s' => s_pos s' = s_pos s + size \/ (length (s_errs s) < length (s_errs s'))%nat
  | Exit _ _ => False
  | _ => True
  end.
Proof.
  intros Hn Hs Ha Hi. assert (Hr : row_ok i).
  { apply in_concat in Hi. destruct Hi as (l & L1 & L2). apply in_map_iff in L1. destruct L1 as (o & <- & L3). now apply (c10_tables o i). }
  pose proof (P_instruction C (knot C n) (knot_ev C n) i args suffix s Hn Hs Ha) as K.
  destruct (write_instruction_data C (knot C n) i args suffix s) as [size s'|? ?|?|]; auto. cbv zeta in K. destruct K as (K1 & K2).
  destruct (pt_pos _ _ _ K1) as [K3|K3]; [left|right; exact K3]. rewrite K3, K2.
  destruct (il _); [rewrite (body_long i Hr)|rewrite <- Hr]; lia.
Qed.
Print Assumptions c10_size.

Definition cfg_e : cfg := {| c_normal := true; c_counter := false; c_symtable := false; c_list := false; c_ez80 := true;
  c_case := false; c_files := fun _ => None; c_rand := fun _ => 0; c_cwd := []; c_md5 := fun _ => []; c_wrap := true |}.
Definition ready : st := set_opcodes opcode_list_ez80 (set_sess 1 blank).
Definition ran (p : string) (adl : bool) : option (Z * Z * list Z) :=
  match handle_opcode_or_macro cfg_e (knot cfg_e 30) (zs p) (set_adl adl ready) with
  | Ok _ s => Some (s_pos s, s_pc s, s_mem s) | _ => None end.
Example ready_inv : inv ready. 
Proof. split; simpl; try (vm_compute; discriminate); repeat constructor; discriminate. Qed.
Example c10_case : ran "ld.lil hl,$123456" true = Some (5, 5, [91; 33; 86; 52; 18]) /\
  ran "ld (ix+2),7" false = Some (4, 4, [221; 54; 2; 7]) /\ ran "set 3,(iy-1)" true = Some (4, 4, [253; 203; 255; 222]) /\
  ran "jp later" true = Some (4, 4, [195; 0; 0; 0]) /\ ran "rst 8" false = Some (1, 1, [207]).
Proof. vm_compute. repeat split. Qed.

(** ** C36 *)
Definition bits (x : suffix) : Z := match x with SIS => 0 | LIS => 1 | SIL => 2 | LIL => 3 end.
Lemma prefix_bits x : 64 + bits x * 9 = prefix_byte x. Proof. now destruct x. Qed.
Lemma il_bits x : il (bits x) = long_immediate x. Proof. now destruct x. Qed.
Definition lower (t : text) : text := map tolower t.

(** Any name followed by any of the documented suffixes, in any case. *)
Lemma nth_end name t k : (k < length t)%nat -> nth (length (name ++ t) - (length t - k)) (name ++ t) 0 = nth k t 0.
Proof. intros H. rewrite app_length, app_nth2 by lia. f_equal. lia. Qed.
Lemma suffix_ok adl name t x : suffix_meaning adl (lower t) = Some x -> parse_suffix adl (name ++ t) = (bits x, length name).
Proof.
  intros H.
  assert (L : lower t = zs ".sis" \/ lower t = zs ".lis" \/ lower t = zs ".sil" \/ lower t = zs ".lil" \/ lower t = zs ".s" \/
    lower t = zs ".l" \/ lower t = zs ".is" \/ lower t = zs ".il").
  { unfold suffix_meaning in H. repeat match type of H with (if eqbl ?a ?b then _ else _) = _ => destruct (eqbl a b) eqn:E; [apply eqbl_eq in E; tauto|clear E] end. discriminate. }
  set (at_ := fun k => if Nat.leb k (length (name ++ t)) then tolower (nth (length (name ++ t) - k) (name ++ t) 0) else 0).
  assert (At : forall k, (k < length t)%nat -> at_ (length t - k)%nat = nth k (lower t) 0).
  { intros k Hk. unfold at_. rewrite app_length. replace (Nat.leb _ _) with true by (symmetry; apply Nat.leb_le; lia).
    rewrite <- app_length, nth_end by exact Hk. unfold lower. change 0 with (tolower 0) at 2. now rewrite map_nth. }
  assert (Ln : length t = length (lower t)) by (symmetry; apply map_length).
  assert (N : length (name ++ t) = (length name + length (lower t))%nat) by (rewrite app_length; lia).
  rewrite Ln in At.
  assert (U : parse_suffix adl (name ++ t) =
    (let n := length (name ++ t) in
     let bit (b : bool) v := if b then v else 0 in
     if (at_ 1%nat =? 115) || (at_ 1%nat =? 108) then
       if at_ 2%nat =? 46 then (Z.lor (bit (at_ 1%nat =? 108) SUFFIX_L) (bit adl SUFFIX_IL), (n - 2)%nat)
       else if at_ 2%nat =? 105 then
         if at_ 3%nat =? 46 then (Z.lor (bit adl SUFFIX_L) (bit (at_ 1%nat =? 108) SUFFIX_IL), (n - 3)%nat)
         else if (at_ 4%nat =? 46) && ((at_ 3%nat =? 115) || (at_ 3%nat =? 108)) then
           (Z.lor (bit (at_ 3%nat =? 108) SUFFIX_L) (bit (at_ 1%nat =? 108) SUFFIX_IL), (n - 4)%nat)
         else (-1, n)
       else (-1, n)
     else (-1, n))) by reflexivity.
  rewrite U. clear U. cbv zeta. clearbody at_. rewrite N.
  destruct L as [E|[E|[E|[E|[E|[E|[E|E]]]]]]]; rewrite E in *; cbn [length zs] in At;
    try pose proof (At 0%nat ltac:(vm_compute; lia)) as A0; try pose proof (At 1%nat ltac:(vm_compute; lia)) as A1;
    try pose proof (At 2%nat ltac:(vm_compute; lia)) as A2; try pose proof (At 3%nat ltac:(vm_compute; lia)) as A3;
    vm_compute in A0; vm_compute in A1; try vm_compute in A2; try vm_compute in A3;
    rewrite ?A0, ?A1, ?A2, ?A3; destruct adl; vm_compute in H; injection H as <-; cbn; f_equal; lia.
Qed.
Theorem c36_suffix adl name t x : suffix_meaning adl (lower t) = Some x ->
  exists b, parse_suffix adl (name ++ t) = (b, length name) /\ 0 <= b /\ 64 + b * 9 = prefix_byte x /\ il b = long_immediate x.
Proof. intros H. exists (bits x). split; [now apply suffix_ok|]. split; [now destruct x|]. split; [apply prefix_bits|apply il_bits]. Qed.
Print Assumptions c36_suffix.
Theorem c36_no_suffix adl name : ~ In 46 name -> parse_suffix adl name = (-1, length name).
Proof.
  intros H.
  assert (K : forall k, (if Nat.leb k (length name) then tolower (nth (length name - k) name 0) else 0) <> 46).
  { intros k. destruct (Nat.leb k (length name)) eqn:E; [|discriminate]. apply Nat.leb_le in E.
    assert (T : forall c, tolower c = 46 -> c = 46) by (intros c; unfold tolower, isupper; destruct (_ && _) eqn:E'; lia).
    intros G. apply T in G. destruct k as [|k].
    - rewrite nth_overflow in G by lia. discriminate.
    - apply H. rewrite <- G. apply nth_In. lia. }
  unfold parse_suffix. cbv zeta. pose proof (K 2%nat) as K2. pose proof (K 3%nat) as K3. pose proof (K 4%nat) as K4.
  apply Z.eqb_neq in K2. apply Z.eqb_neq in K3. apply Z.eqb_neq in K4. rewrite K2, K3, K4. cbn [andb].
  repeat match goal with |- (if ?b then _ else _) = _ => destruct b end; reflexivity.
Qed.
Print Assumptions c36_no_suffix.

(** The bytes: the prefix byte stands where the instruction begins, and immediates are three
    bytes for SIL and LIL, two for SIS and LIS. *)
Lemma prefix_kept C n i args x s : c_normal C = true -> inv s -> Forall (fun a => clean (seg (fst a) (snd a))) args -> 0 <= s_pos s ->
  match write_instruction_data C (knot C n) i args (bits x) s with
  | Ok _ s' => nth (Z.to_nat (s_pos s)) (s_mem s') 0 = prefix_byte x
  | _ => True
  end.
Proof.
  intros Hn Hs Ha Hp. unfold write_instruction_data. rewrite bind_get. cbv zeta. replace (0 <=? bits x) with true by now destruct x.
  cbn [whenM]. rewrite prefix_bits, Hn. change (true || c_list C) with true. unfold write_out at 1. rewrite !bind_assoc, bind_get.
  destruct (_ && _) eqn:E; [|exact I]. rewrite !bind_assoc, bind_get, bind_assoc, bind_upd. unfold bind at 1. cbn [upd].
  set (s1 := set_pos _ _). pose proof (P_write (prefix_byte x) s Hs) as K1. unfold write_out in K1. rewrite bind_get, E, bind_get, bind_upd in K1. cbn [upd] in K1.
  fold s1 in K1. pose proof (pt_inv _ _ _ K1) as I1. unfold bind at 1.
  pose proof (P_write_all (rev (firstn (Z.to_nat (i_size0 i)) (i_data i))) s1 I1) as K2. cbn [whenM].
  destruct (write_all _ s1) as [u2 s2|? ?|?|]; auto. unfold bind at 1.
  pose proof (P_operands C (knot C n) (knot_ev C n) (i_args i) args (bits x) (i_size i + 1) None Ha I s2 (pt_inv _ _ _ K2)) as K3.
  destruct (write_operands C _ (i_args i) args (bits x) _ None s2) as [[sz bit] s3|? ?|?|]; auto. destruct K3 as (K3 & _ & K5). cbn [fst snd] in *.
  rewrite andb_true_r. unfold bind at 1.
  assert (K6 : match whenM (i_has_end i) (match bit with Some t => add_pass_two_expr C (knot C n) t ARG_BIT_NUM sz (i_end i) | None => write_out (i_end i) end) s3 with
    | Ok _ s' => put (if i_has_end i then 1 else 0) s3 s' | Exit _ _ => False | _ => True end).
  { apply (P_when 1); [|exact (pt_inv _ _ _ K3)]. destruct bit as [t|]; [apply (P_add C _ (knot_ev C n) t ARG_BIT_NUM); exact K5|apply P_write]. }
  destruct (whenM (i_has_end i) _ s3) as [u4 s4|? ?|?|]; auto. cbn [ret].
  pose proof (put_trans _ _ _ _ _ K2 (put_trans _ _ _ _ _ K3 K6)) as K. rewrite (pt_low _ _ _ K); [|simpl; lia|simpl; lia].
  unfold s1. cbn [s_mem set_pos set_mem]. rewrite put_at_splice, splice_nth by discriminate. simpl length.
  replace (Nat.leb _ _ && Nat.ltb _ _)%bool with true by (symmetry; apply andb_true_iff; split; [apply Nat.leb_le|apply Nat.ltb_lt]; lia).
  rewrite Nat.sub_diag. now destruct x.
Qed.
Lemma strncaseq_app : forall name r o, eqbl_ci name o = true -> strncaseq (Nat.max (length o) (length name)) (name ++ r) o = true.
Proof.
  assert (L : forall a o, eqbl_ci a o = true -> length a = length o).
  { induction a as [|x a IH]; intros [|y o] H; try discriminate; [reflexivity|]. simpl in *. apply andb_true_iff in H. f_equal. now apply IH. }
  intros name r o H. rewrite (L _ _ H), Nat.max_id. revert o H. induction name as [|x name IH]; intros [|y o] H; try discriminate; [now destruct r|].
  simpl in *. apply andb_true_iff in H as (-> & H). now apply IH.
Qed.
Lemma find_named name r o : forall ops, In o ops -> eqbl_ci name (op_name o) = true ->
  exists o' ops', find_opcode (name ++ r) (length name) ops = o' :: ops' /\ incl (o' :: ops') ops.
Proof.
  induction ops as [|o1 ops IH]; intros Hi Hn; [destruct Hi|]. cbn [find_opcode]. destruct (strncaseq _ _ (op_name o1)) eqn:E.
  - exists o1, ops. split; [reflexivity|apply incl_refl].
  - destruct Hi as [->|Hi]; [rewrite strncaseq_app in E; [discriminate|exact Hn]|].
    destruct (IH Hi Hn) as (o' & ops' & F & G). exists o', ops'. split; [exact F|now apply incl_tl].
Qed.

(** A whole instruction statement in eZ80 mode: name, suffix, operands.  If the name is that of
    an instruction then either a problem is recorded, or the first byte emitted is the prefix
    byte of the suffix. *)
Theorem c36_statement C n name t rest x o s :
  c_normal C = true -> c_ez80 C = true -> inv s -> 0 <= s_pos s ->
  Forall (fun c => is_name_char c = true) (name ++ t) -> is_name_char (hd0 rest) = false -> clean (name ++ t ++ rest) ->
  suffix_meaning (s_adl s) (lower t) = Some x -> In o (s_opcodes s) -> eqbl_ci name (op_name o) = true ->
  match handle_opcode_or_macro C (knot C n) (name ++ t ++ rest) s with
  | Ok _ s' => nth (Z.to_nat (s_pos s)) (s_mem s') 0 = prefix_byte x \/ (length (s_errs s) < length (s_errs s'))%nat
  | Exit _ _ => False
  | _ => True
  end.
Proof.
  intros Hn He Hs Hp Hc Hr Hcl Hx Ho Hm. unfold handle_opcode_or_macro. cbv zeta. rewrite !bind_get, He.
  rewrite app_assoc. rewrite (skip_name_app (name ++ t) rest); [|eapply Forall_impl; [|exact Hc]; intros; now apply name_char_iff|exact Hr]. rewrite seg_app. rewrite (suffix_ok _ name t x Hx).
  rewrite <- app_assoc. destruct (find_named name (t ++ rest) o (s_opcodes s) Ho Hm) as (o' & ops & -> & _).
  assert (Hb : clean rest) by now apply clean_app_r, clean_app_r in Hcl.
  unfold handle_opcode. unfold bind at 1.
  pose proof (EV_match_opcode (name ++ t ++ rest) (skip_ws rest) Hcl (clean_skip_ws _ Hb) (o' :: ops) s Hs) as K.
  destruct (match_opcode_args _ _ _ s) as [[q r] s1|? ?|?|]; auto. destruct K as (K1 & K2 & (K3 & K4) & K5).
  cbn [fst snd] in *. destruct r as [[i args]|]; [|right; apply K5; reflexivity]. destruct K4 as (_ & K7).
  assert (Ha : Forall (fun a => clean (seg (fst a) (snd a))) args) by (eapply Forall_impl; [|exact K7]; simpl; intros; now apply clean_seg).
  assert (E1 : s_pos s1 = s_pos s) by exact (f_equal s_pos (ev_core _ _ K1)).
  pose proof (prefix_kept C n i args x s1 Hn K2 Ha ltac:(lia)) as K. rewrite E1 in K. unfold bind at 1.
  pose proof (P_instruction C (knot C n) (knot_ev C n) i args (bits x) s1 Hn K2 Ha) as J.
  destruct (write_instruction_data C (knot C n) i args (bits x) s1) as [size s2|? ?|?|]; auto.
  left. exact K.
Qed.
Print Assumptions c36_statement.
(** The width of the immediates with a suffix, and without one in either mode. *)
Theorem c36_width C n i args suffix s :
  c_normal C = true -> c_ez80 C = true -> inv s -> Forall (fun a => clean (seg (fst a) (snd a))) args ->
  In i (concat (map op_instrs opcode_list_ez80)) ->
  match write_instruction_data C (knot C n) i args (match suffix with Some x => bits x | None => -1 end) s with
  | Ok size s' => size = zlen (firstn (Z.to_nat (i_size0 i)) (i_data i)) + (if i_has_end i then 1 else 0) +
      match suffix with
      | Some x => 1 + operands_width (long_immediate x) (i_args i)
      | None => operands_width (s_adl s) (i_args i)
      end
  | Exit _ _ => False
  | _ => True
  end.
Proof.
  intros Hn He Hs Ha Hi. assert (Hr : row_ok i).
  { apply in_concat in Hi. destruct Hi as (l & L1 & L2). apply in_map_iff in L1. destruct L1 as (o & <- & L3).
    apply (c10_tables o i); [apply in_or_app; now right|exact L2]. }
  set (b := match suffix with Some x => bits x | None => -1 end).
  pose proof (P_instruction C (knot C n) (knot_ev C n) i args b s Hn Hs Ha) as K.
  destruct (write_instruction_data C (knot C n) i args b s) as [size s'|? ?|?|]; auto. cbv zeta in K. destruct K as (_ & K2).
  rewrite K2. assert (W : forall l, i_size i + (if l : bool then longs (i_args i) else 0) = body_width i l).
  { intros l. destruct l; [rewrite (body_long i Hr)|rewrite <- Hr]; lia. }
  rewrite <- Z.add_assoc, W. unfold body_width, b, mode_of. rewrite He. destruct suffix as [x|].
  - replace (0 <=? bits x) with true by now destruct x. rewrite il_bits. lia.
  - change (0 <=? -1) with false. cbv iota. destruct (s_adl s); [change (il _) with true|change (il _) with false]; lia.
Qed.
Print Assumptions c36_width.
Example c36_case : ran "ld.sis hl,$1234" true = Some (4, 4, [64; 33; 52; 18]) /\ ran "LD.IL hl,$123456" false = Some (5, 5, [82; 33; 86; 52; 18]) /\ ran "ldi.L" false = Some (3, 3, [73; 237; 160]) /\ ran "ld hl,$123456" true = Some (4, 4, [33; 86; 52; 18]).
Proof. vm_compute. repeat split. Qed.
