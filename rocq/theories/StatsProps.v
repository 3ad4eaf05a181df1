(** Theorems about the sizes and execution times that -C and -S report (C79, C80). *)
From Verif Require Import Programs.
From Verif Require Import Base BaseProofs State UtilsModel ErrorsModel StorageModel ParserModel PassTwoModel
  PreopModel PassOneModel DirectiveModel Knot MainModel OpcodeTables MonadProofs UtilsSpec UtilsProofs StorageProofs ParserProofs
  PassTwoSpec PassTwoProofs EvalSpec EvalProofs FrameProofs SecondProofs ResolveProofs InstrSpec InstrProofs Validate InstrProps
  ParserSpec MatchSpec MatchProofs MatchProps SecondProps TimingSpec StatsModel.

(** ** C79 *)
(** A statement advances the output, the address counter and one of the two counted sizes by
    the same number of bytes. *)
Definition modulo (n : Z) : Z := n mod 2 ^ 32.
Definition code_grows (k : Z) (s s' : st) : Prop :=
  s_pos s' = s_pos s + k /\ s_pc s' = modulo (s_pc s + k) /\ s_codesize s' = modulo (s_codesize s + k) /\ s_datasize s' = s_datasize s.
Definition data_grows (k : Z) (s s' : st) : Prop :=
  s_pos s' = s_pos s + k /\ s_pc s' = modulo (s_pc s + k) /\ s_datasize s' = modulo (s_datasize s + k) /\ s_codesize s' = s_codesize s /\
  s_mintime s' = s_mintime s /\ s_maxtime s' = s_maxtime s.
(** One period for a suffix; the row's own penalty when a suffix other than .SIS is written, or
    none is in ADL mode. *)
Definition penalty (code : Z) (adl : bool) (i : instr) : Z :=
  (if code =? -1 then if adl then i_adl i else 0 else 1 + (if code =? 0 then 0 else i_adl i)).

Theorem c79_instruction C n name t b o i ws ops rest code s :
  c_normal C = true -> inv s -> Forall clean ops ->
  s_opcodes s = opcode_list \/ s_opcodes s = opcode_list_ez80 -> In o (s_opcodes s) -> eqbl_ci name (op_name o) = true ->
  Forall MatchSpec.name_char (name ++ t) -> suffix_code C s name t code -> Forall blank b ->
  is_name_char (hd0 (b ++ wtext ws ++ rest)) = false ->
  In i (op_instrs o) -> spells (i_args i) ws ops -> Forall (fun w => item_ok o (fst w)) ws -> zlen (wtext ws) <= 254 -> line_over rest ->
  match handle_opcode_or_macro C (knot C n) (name ++ t ++ b ++ wtext ws ++ rest) s with
  | Ok q s' => q = rest /\
      exists j k, first_like (i_args i) (op_instrs o) = Some j /\
        s_mintime s' = modulo (s_mintime s + i_min j + penalty code (s_adl s) j) /\
        s_maxtime s' = modulo (s_maxtime s + i_max j + penalty code (s_adl s) j) /\
        (code_grows k s s' \/ (length (s_errs s) < length (s_errs s'))%nat)
  | Exit _ _ => False
  | _ => True
  end.
Proof.
  intros Hn Hs Hcl Htbl Ho Hnm Hch Hc Hb Hx Hi Hsp Hok Hlen Hr.
  assert (Ho2 : In o (opcode_list ++ opcode_list_ez80)) by (apply in_or_app; destruct Htbl as [<-|<-]; auto).
  destruct (c12_statement C (knot C n) name t b o i ws ops rest code s Htbl Ho Hnm Hch Hc Hb Hx Hi Hsp Hok Hlen Hr) as (j & args & F1 & F2 & F3 & ->).
  assert (Hj : In j (op_instrs o)) by (unfold first_like in F1; now apply find_some in F1).
  assert (Rj : row_ok j) by exact (c10_tables o j Ho2 Hj).
  assert (Ha : Forall (fun a => clean (seg (fst a) (snd a))) args) by (rewrite <- F3 in Hcl; rewrite Forall_map in Hcl; exact Hcl).
  pose proof (P_instruction C (knot C n) (knot_ev C n) j args code s Hn Hs Ha) as K. unfold bind at 1.
  destruct (write_instruction_data C (knot C n) j args code s) as [size s2|? ?|?|]; auto. cbv zeta in K. destruct K as (J1 & J2).
  assert (E2 : s_pc s2 = s_pc s) by exact (f_equal s_pc (pt_core _ _ _ J1)).
  assert (E3 : s_codesize s2 = s_codesize s) by exact (f_equal s_codesize (pt_core _ _ _ J1)).
  assert (E4 : s_datasize s2 = s_datasize s) by exact (f_equal s_datasize (pt_core _ _ _ J1)).
  assert (E5 : s_mintime s2 = s_mintime s) by exact (f_equal s_mintime (pt_core _ _ _ J1)).
  assert (E6 : s_maxtime s2 = s_maxtime s) by exact (f_equal s_maxtime (pt_core _ _ _ J1)).
  assert (E7 : s_adl s2 = s_adl s) by exact (f_equal s_adl (pt_core _ _ _ J1)).
  assert (Pe : (if 0 <=? code then 1 else 0) + (if ((code <? 0) && s_adl s2) || (0 <? code) then i_adl j else 0) = penalty code (s_adl s) j).
  { rewrite E7. unfold penalty. destruct Hc as [(_ & -> & _)|(_ & x & _ & ->)]; [destruct (s_adl s); reflexivity|]. destruct x, (s_adl s); reflexivity. }
  unfold add_pc, add_stats. cbn -[i_min i_max Z.add]. rewrite Pe. split; [reflexivity|]. exists j, size. split; [exact F1|].
  rewrite E5, E6. unfold modulo. split; [unfold u32; f_equal; lia|]. split; [unfold u32; f_equal; lia|].
  destruct (pt_pos _ _ _ J1) as [J3|J3]; [left|right; exact J3].
  set (long := il (mode_of C (s_adl s) code)) in *.
  assert (Sz : size = (if 0 <=? code then 1 else 0) + body_width j long).
  { rewrite J2. destruct long; [rewrite (body_long j Rj)|rewrite <- Rj]; lia. }
  unfold code_grows. cbn. rewrite J3, <- Sz, E2, E3, E4. repeat split.
Qed.
Print Assumptions c79_instruction.

(** .fill and .block: whatever the operands, the size is counted in full, or a problem is
    recorded. *)
Lemma write_n_pos v : forall k s, match write_n k v s with Ok _ s' => s_pos s' = s_pos s + Z.of_nat k /\ ecore s' = ecore s | Exit _ _ => False | _ => True end.
Proof.
  induction k as [|k IH]; intros s; cbn [write_n].
  - unfold ret. split; [lia|reflexivity].
  - unfold bind at 1. unfold write_out. rewrite bind_get. destruct (_ && _); [|exact I]. rewrite bind_get, bind_upd. unfold upd.
    match goal with |- context [write_n k v ?x] => specialize (IH x); destruct (write_n k v x); auto end.
    destruct IH as (I1 & I2). split; [rewrite I1; cbn [s_pos set_pos]; lia|]. rewrite I2. reflexivity.
Qed.
Theorem c79_fill C n p s : inv s -> clean p ->
  match dir_fill (knot C n) p s with
  | Ok _ s' => (exists k, 0 <= k /\ data_grows k s s') \/ (length (s_errs s) < length (s_errs s'))%nat
  | Exit _ _ => False
  | _ => True
  end.
Proof.
  intros Hs Hp. unfold dir_fill. unfold bind at 1. pose proof (EV_read_expr p (zs ",") Hp s Hs) as K1.
  destruct (read_expr p (zs ",") s) as [w s1|? ?|?|]; auto. destruct K1 as (V1 & I1 & (Cp & Cw) & _).
  unfold bind at 1. pose proof (EV_parse_num _ (vf_full _ (knot_ev C n)) (rx_word w) Cw s1 I1) as K2.
  destruct (parse_num (knot C n) (rx_word w) s1) as [z s2|? ?|?|]; auto. destruct K2 as (V2 & I2 & _ & _). cbv zeta.
  assert (Cq : clean (skip_char 44 (skip_ws (rx_ptr w)))).
  { pose proof (clean_skip_ws _ Cp) as H. unfold skip_char. destruct (skip_ws (rx_ptr w)) as [|c l]; [exact H|]. inversion H; subst. destruct (_ =? _); auto. }
  unfold bind at 1. pose proof (EV_read_expr _ [] Cq s2 I2) as K3.
  destruct (read_expr _ [] s2) as [w2 s3|? ?|?|]; auto. destruct K3 as (V3 & I3 & (_ & Cw2) & _).
  assert (Ev : EV any never (if rx_ret w2 then v <- parse_num (knot C n) (rx_word w2) ;; ret (or0 v) else ret 0)).
  { destruct (rx_ret w2); [|apply EV_ret; [exact I|reflexivity]]. eapply EV_bind with (F1 := never) (Q1 := any).
    - eapply EV_weak; [apply (EV_parse_num _ (vf_full _ (knot_ev C n)) _ Cw2)|auto|discriminate].
    - intros v _. apply EV_ret; [exact I|reflexivity]. }
  unfold bind at 1. specialize (Ev s3 I3). match type of Ev with match ?x with _ => _ end => destruct x as [v s4|? ?|?|] end; auto. destruct Ev as (V4 & I4 & _ & _).
  assert (V : ev s s4) by (eapply ev_trans; [exact V1|]; eapply ev_trans; [exact V2|]; eapply ev_trans; [exact V3|exact V4]).
  unfold bind at 1. destruct (or0 z <? 0) eqn:Ez.
  - pose proof (EV_problem false SPASM_ERR_SIZE_MUST_BE_POSITIVE ltac:(discriminate) s4 I4) as K. unfold set_error.
    destruct (set_problem false _ s4) as [u s5|? ?|?|]; auto. destruct K as (_ & _ & _ & G). specialize (G eq_refl).
    unfold ret. right. pose proof (ev_length _ _ V). unfold grew in G. lia.
  - set (warn := whenM _ _). assert (Ew : EV any never warn).
    { unfold warn, whenM. destruct (_ || _); [|apply EV_ret; [exact I|reflexivity]].
      eapply EV_weak; [apply (EV_problem true SPASM_WARN_TRUNCATING_8); discriminate|auto|discriminate]. }
    clearbody warn. unfold bind at 1. specialize (Ew s4 I4). destruct (warn s4) as [u s5|? ?|?|]; auto. destruct Ew as (V5 & _ & _ & _).
    assert (W : core s5 = core s) by (rewrite (ev_core _ _ V5); apply (ev_core _ _ V)).
    unfold bind at 1. unfold add_pc. rewrite bind_get. unfold upd at 1. unfold bind at 1. unfold add_datasize. rewrite bind_get. unfold upd at 1.
    set (s6 := set_datasize _ _). pose proof (write_n_pos (Z.land v 255) (Z.to_nat (or0 z)) s6) as K.
    destruct (write_n _ _ s6) as [u2 s7|? ?|?|]; auto. destruct K as (K1 & K2). unfold ret. left. exists (or0 z). split; [lia|].
    assert (E0 : forall (f : st -> Z), (forall x, f (core x) = f x) -> f s5 = f s).
    { intros f Hf. rewrite <- (Hf s5), W. apply Hf. }
    assert (E1 : forall (f : st -> Z), (forall x, f (ecore x) = f x) -> f s7 = f s6).
    { intros f Hf. rewrite <- (Hf s7), K2. apply Hf. }
    unfold data_grows. rewrite K1, (E1 s_pc), (E1 s_datasize), (E1 s_codesize), (E1 s_mintime), (E1 s_maxtime) by reflexivity.
    unfold s6. cbn [s_pos s_pc s_datasize s_codesize s_mintime s_maxtime set_datasize set_pc].
    rewrite (E0 s_pos), (E0 s_pc), (E0 s_datasize), (E0 s_codesize), (E0 s_mintime), (E0 s_maxtime) by reflexivity.
    unfold modulo, u32. repeat split. lia.
Qed.
Print Assumptions c79_fill.

(** A number in .db, .dw and .dl whose value is known: its width is counted. *)
Theorem c79_number C n word t sess s : is_data t = true -> hd0 word <> 34 -> inv s -> clean word ->
  (exists v s1, parse_num (knot C n) word (set_sess (s_sess s + 1) s) = Ok (Some v) s1) ->
  match emit_word C (knot C n) word t sess s with
  | Ok _ s' => data_grows (match t with E_BYTE => 1 | E_WORD => 2 | _ => 3 end) s s'
  | Exit _ _ => False
  | _ => True
  end.
Proof.
  intros Ht Hw Hs Hc (v & s1 & Ep). unfold emit_word. replace (hd0 word =? 34) with false by lia.
  unfold start_session. rewrite !bind_assoc, bind_get, !bind_assoc, bind_upd, bind_ret. set (s0 := set_sess (s_sess s + 1) s) in *.
  rewrite (bind_ok _ _ _ _ _ Ep). rewrite bind_get. cbv iota. rewrite Ht.
  pose proof (EV_parse_num _ (vf_full _ (knot_ev C n)) word Hc s0 (inv_start s Hs)) as K. rewrite Ep in K. destruct K as (V1 & I1 & _ & _).
  assert (Tn : etype_arg t <> ARG_RST) by (destruct t; discriminate).
  assert (Tz : Z.of_nat (slot (etype_arg t)) = etype_size t) by (destruct t; try discriminate Ht; reflexivity).
  assert (Tw : etype_size t = match t with E_BYTE => 1 | E_WORD => 2 | _ => 3 end) by (destruct t; try discriminate Ht; reflexivity). rewrite <- Tw. clear Tw.
  rewrite !bind_assoc. unfold bind at 1. pose proof (P_arg C v (etype_arg t) 0 0 s1 I1) as K1. pose proof (WE_arg C v (etype_arg t) 0 0 (or_introl Tn) s1) as K2.
  destruct (write_arg C v (etype_arg t) 0 0 s1) as [u s2|? ?|?|]; auto. destruct K2 as (_ & K2 & _). rewrite Tz in *.
  assert (S2 : s_sess s2 = s_sess s + 1).
  { transitivity (s_sess s1); [exact (f_equal s_sess (pt_core _ _ _ K1))|exact (f_equal s_sess (ev_core _ _ V1))]. }
  pose proof (iv_sess _ Hs) as Ls.
  unfold add_datasize, add_pc. repeat first [rewrite bind_assoc|rewrite bind_get|rewrite bind_upd|rewrite bind_ret].
  set (s3 := set_pc _ _).
  rewrite (bind_ok _ _ _ _ _ (replay_nested C (s_sess s + 1) false s3 ltac:(lia))). rewrite (bind_ok _ _ _ _ _ (end_nested (s_sess s + 1) _ ltac:(lia))).
  unfold ret. unfold s3.
  assert (E1 : forall (f : st -> Z), (forall x, f (ecore x) = f x) -> f s2 = f s1).
  { intros f Hf. rewrite <- (Hf s2), (pt_core _ _ _ K1). apply Hf. }
  assert (E0 : forall (f : st -> Z), (forall x, f (core x) = f x) -> f s1 = f s0).
  { intros f Hf. rewrite <- (Hf s1), (ev_core _ _ V1). apply Hf. }
  unfold data_grows. cbn [s_pos s_pc s_datasize s_codesize s_mintime s_maxtime set_datasize set_pc set_sess set_errs].
  rewrite K2, (E1 s_pc), (E1 s_datasize), (E1 s_codesize), (E1 s_mintime), (E1 s_maxtime) by reflexivity.
  rewrite (E0 s_pos), (E0 s_pc), (E0 s_datasize), (E0 s_codesize), (E0 s_mintime), (E0 s_maxtime) by reflexivity. repeat split.
Qed.
Print Assumptions c79_number.

(** A number in .db, .dw and .dl that waits for the second pass: its width is counted all the same.
    Room for it is left in the output unless, besides the name that is not known yet, a further
    problem was recorded. *)
Lemma put_shift k a b s s' : put k s s' -> put k (set_pc a (set_datasize b s)) (set_pc a (set_datasize b s')).
Proof.
  intros [A1 A2 A3 A4 A5 A6 A7 A8 A9 A10]. split; auto.
  - exact (f_equal (fun x => set_pc a (set_datasize b x)) A1).
  - destruct A7. split; auto.
Qed.
Theorem c79_waiting C n word t sess s : is_data t = true -> hd0 word <> 34 -> inv s -> clean word ->
  match parse_num (knot C n) word (set_sess (s_sess s + 1) s) with
  | Ok None s1 => sess_fatal (s_sess s + 1) (s_errs s1) = false
  | _ => False
  end ->
  match emit_word C (knot C n) word t sess s with
  | Ok _ s' =>
    let k := match t with E_BYTE => 1 | E_WORD => 2 | _ => 3 end in
    data_grows k s (set_pos (s_pos s + k) s') /\ (s_pos s' = s_pos s + k \/ (length (s_errs s) + 2 <= length (s_errs s'))%nat)
  | Exit _ _ => False
  | _ => True
  end.
Proof.
  intros Ht Hw Hs Hc Hp. unfold emit_word. replace (hd0 word =? 34) with false by lia.
  unfold start_session. rewrite !bind_assoc, bind_get, !bind_assoc, bind_upd, bind_ret. set (s0 := set_sess (s_sess s + 1) s) in *.
  pose proof (EV_parse_num _ (vf_full _ (knot_ev C n)) word Hc s0 (inv_start s Hs)) as K.
  destruct (parse_num (knot C n) word s0) as [[v|] s1|? ?|?|] eqn:Ep; try contradiction Hp. destruct K as (V1 & I1 & _ & V4). specialize (V4 eq_refl).
  rewrite (bind_ok _ _ _ _ _ Ep). rewrite bind_get. cbv iota. rewrite Hp, Ht. cbn [negb andb orb].
  assert (Tz : Z.of_nat (slot (etype_arg t)) = etype_size t) by (destruct t; try discriminate Ht; reflexivity).
  assert (Tw : etype_size t = match t with E_BYTE => 1 | E_WORD => 2 | _ => 3 end) by (destruct t; try discriminate Ht; reflexivity). rewrite <- Tw. clear Tw.
  rewrite !bind_assoc. unfold bind at 1. pose proof (P_add C (knot C n) (knot_ev C n) word (etype_arg t) 0 0 Hc s1 I1) as K1. rewrite Tz in K1.
  destruct (add_pass_two_expr C (knot C n) word (etype_arg t) 0 0 s1) as [u s2|? ?|?|]; auto.
  pose proof (put_trans _ _ _ _ _ (ev_put _ _ V1 I1) K1) as K2. rewrite Z.add_0_l in K2.
  assert (E2 : forall (f : st -> Z), (forall x, f (ecore x) = f x) -> f s2 = f s0).
  { intros f Hf. rewrite <- (Hf s2), (pt_core _ _ _ K2). apply Hf. }
  unfold add_datasize, add_pc. repeat first [rewrite bind_assoc|rewrite bind_get|rewrite bind_upd|rewrite bind_ret].
  set (s3 := set_pc _ _). pose proof (put_shift _ (u32 (s_pc s2 + etype_size t)) (u32 (s_datasize s2 + etype_size t)) _ _ K2) as K3.
  set (r := set_pc (u32 (s_pc s2 + etype_size t)) (set_datasize (u32 (s_datasize s2 + etype_size t)) s)).
  assert (Ir : inv r) by (destruct Hs; split; auto).
  pose proof (iv_sess _ Hs) as Ls.
  rewrite (bind_ok _ _ _ _ _ (replay_nested C (s_sess s + 1) true s3 ltac:(lia))). rewrite (bind_ok _ _ _ _ _ (end_nested (s_sess s + 1) _ ltac:(lia))).
  unfold ret. set (s4 := set_sess _ _).
  assert (L : length (s_errs s4) = length (s_errs s2)).
  { change (s_errs s4) with (unlead (s_sess s + 1) (replay_up (s_sess s + 1) (s_errs s2))).
    destruct (pt_errs _ _ _ K2) as (new & H4 & H5). change (s_errs s0) with (s_errs s) in H4. rewrite H4, (replay_new (s_sess s + 1)); [|exact H5|eapply Forall_impl; [|apply (iv_errs _ Hs)]; simpl; lia].
    replace (s_sess s + 1 - 1) with (s_sess s) by lia.
    pose proof (unlead_new (s_sess s + 1) [] (map (to_sess (s_sess s)) new ++ s_errs s) ltac:(constructor)) as U. cbn [app] in U. rewrite U.
    - rewrite !app_length, map_length. reflexivity.
    - apply Forall_app. split; [apply Forall_map; apply Forall_forall; intros x _; simpl; lia|].
      eapply Forall_impl; [|apply (iv_errs _ Hs)]. simpl; lia. }
  split.
  - unfold data_grows, s4, s3. cbn [s_pos s_pc s_datasize s_codesize s_mintime s_maxtime set_datasize set_pc set_sess set_errs set_pos].
    rewrite (E2 s_pc), (E2 s_datasize), (E2 s_codesize), (E2 s_mintime), (E2 s_maxtime) by reflexivity. repeat split.
  - destruct (pt_pos _ _ _ K1) as [G|G].
    + left. change (s_pos s2 = s_pos s + etype_size t). rewrite G. f_equal. exact (f_equal s_pos (ev_core _ _ V1)).
    + right. rewrite L. unfold grew in *. change (s_errs s0) with (s_errs s) in V4. lia.
Qed.
Print Assumptions c79_waiting.

(** A string: every character is counted. *)
Lemma modulo_add a b c : modulo (modulo (a + b) + c) = modulo (a + (b + c)).
Proof. unfold modulo. rewrite Z.add_mod_idemp_l by lia. f_equal. lia. Qed.
Lemma emit_chars_grows C : c_normal C = true -> forall l s, 0 <= s_pc s < 2 ^ 32 -> 0 <= s_datasize s < 2 ^ 32 ->
  match emit_chars C l s with Ok _ s' => data_grows (zlen l) s s' | Exit _ _ => False | _ => True end.
Proof.
  intros Hn. induction l as [|c l IH]; intros s Hp Hd; cbn [emit_chars].
  - unfold ret, data_grows, modulo. change (zlen []) with 0. rewrite !Z.add_0_r, !Z.mod_small by assumption. repeat split.
  - rewrite Hn. change (true || c_list C) with true. unfold whenM, write_out. rewrite !bind_assoc, bind_get. destruct (_ && _); [|exact I].
    unfold add_datasize, add_pc.
    repeat first [rewrite bind_assoc|rewrite bind_get|rewrite bind_upd|rewrite bind_ret].
    match goal with |- context [emit_chars C l ?x] => set (s1 := x) end.
    assert (U : forall z, 0 <= u32 z < 2 ^ 32) by (intros; unfold u32; apply Z.mod_pos_bound; lia).
    specialize (IH s1 (U _) (U _)). destruct (emit_chars C l s1); auto. destruct IH as (I1 & I2 & I3 & I4 & I5 & I6). unfold data_grows.
    rewrite I1, I2, I3, I4, I5, I6. unfold s1. cbn [s_pos s_pc s_datasize s_codesize s_mintime s_maxtime set_datasize set_pc set_mem set_pos].
    rewrite zlen_cons. change u32 with modulo. rewrite !modulo_add. split; [lia|]. repeat split.
Qed.
Theorem c79_string C n word t sess s : c_normal C = true -> is_data t = true -> hd0 word = 34 -> next_expr word EXPR_DELIMS = [] -> inv s -> clean word ->
  0 <= s_pc s < 2 ^ 32 -> 0 <= s_datasize s < 2 ^ 32 ->
  match emit_word C (knot C n) word t sess s with
  | Ok _ s' => exists u s1, reduce_string (knot C n) word s = Ok u s1 /\ data_grows (zlen u) s s'
  | Exit _ _ => False
  | _ => True
  end.
Proof.
  intros Hn Ht Hw Hx Hs Hc Hp Hd. unfold emit_word. rewrite Hw. change (34 =? 34) with true. cbv iota. rewrite Hx, Ht.
  unfold bind at 1. pose proof (EV_reduce_string _ (vf_full _ (knot_ev C n)) (vf_eval _ (knot_ev C n)) (vf_expand _ (knot_ev C n)) word Hc s Hs) as K.
  destruct (reduce_string (knot C n) word s) as [u s1|? ?|?|]; auto. destruct K as (V & _ & _ & _).
  assert (E0 : forall (f : st -> Z), (forall x, f (core x) = f x) -> f s1 = f s).
  { intros f Hf. rewrite <- (Hf s1), (ev_core _ _ V). apply Hf. }
  unfold bind. pose proof (emit_chars_grows C Hn u s1) as G. rewrite (E0 s_pc), (E0 s_datasize) in G by reflexivity. specialize (G Hp Hd).
  destruct (emit_chars C u s1); auto. unfold ret. exists u, s1. split; [reflexivity|]. destruct G as (I1 & I2 & I3 & I4 & I5 & I6). unfold data_grows.
  rewrite I1, I2, I3, I4, I5, I6.
  rewrite (E0 s_pos), (E0 s_pc), (E0 s_datasize), (E0 s_codesize), (E0 s_mintime), (E0 s_maxtime) by reflexivity. repeat split.
Qed.
Print Assumptions c79_string.

(** ** C80 *)
(** The opcodes a row stands for: with a bit number, eight; for RST, eight; otherwise one. *)
Definition eight : list Z := [0; 1; 2; 3; 4; 5; 6; 7].
Definition opcodes_of (i : instr) : list (list Z) :=
  let b := rev (firstn (Z.to_nat (i_size0 i)) (i_data i)) in
  if existsb (Z.eqb 94) (i_args i) then map (fun n => b ++ [i_end i + 8 * n]) eight
  else match b with
       | [] => map (fun n => [199 + 8 * n]) eight
       | _ => [if i_has_end i then b ++ [i_end i] else b]
       end.
(** Instructions that Zilog's manual does not describe. *)
Definition undocumented (bs : list Z) : bool :=
  match bs with
  | [203; b] => (48 <=? b) && (b <=? 55)
  | [221; b] | [253; b] => (fx b =? 2) && ((fz b =? 4) || (fz b =? 5))
  | [221; 203; b] | [253; 203; b] => negb (fz b =? 6) || ((48 <=? b) && (b <=? 55))
  | _ => false
  end.
Definition wrong_rows : list (text * text) := [(zs "ADC", zs "A,L"); (zs "BIT", zs "^,(IX@)"); (zs "BIT", zs "^,(IY@)")].

(** Every row of the Z80 table except those three either has the documented times of its
    opcodes, or has none, and then its opcodes are undocumented. *)
Theorem c80_times_partial : forall o i c, In o opcode_list -> In i (op_instrs o) -> ~ In (op_name o, i_args i) wrong_rows -> In c (opcodes_of i) ->
  time_of c = Some (i_min i, i_max i) \/ (undocumented c = true /\ i_min i = 0 /\ i_max i = 0).
Proof.
  intros o i c Ho Hi Hw Hc.
  set (wr := fun o i => existsb (fun w => eqbl (fst w) (op_name o) && eqbl (snd w) (i_args i)) wrong_rows).
  set (ok := fun i c => match time_of c with Some (u, v) => (u =? i_min i) && (v =? i_max i) | None => false end || (undocumented c && (i_min i =? 0) && (i_max i =? 0))).
  assert (K : forallb (fun o => forallb (fun i => wr o i || forallb (ok i) (opcodes_of i)) (op_instrs o)) opcode_list = true) by (vm_compute; reflexivity).
  rewrite forallb_forall in K. specialize (K o Ho). rewrite forallb_forall in K. specialize (K i Hi). apply orb_true_iff in K as [K|K].
  - exfalso. apply Hw. apply existsb_exists in K as ([a b] & K1 & K2). apply andb_true_iff in K2 as (K2 & K3). apply eqbl_eq in K2, K3. cbn [fst snd] in *. now rewrite <- K2, <- K3.
  - rewrite forallb_forall in K. specialize (K c Hc). apply orb_true_iff in K as [K|K].
    + left. destruct (time_of c) as [[u v]|]; [|discriminate]. apply andb_true_iff in K as (K1 & K2). apply Z.eqb_eq in K1, K2. now subst.
    + right. apply andb_true_iff in K as (K & K3). apply andb_true_iff in K as (K1 & K2). apply Z.eqb_eq in K2, K3. auto.
Qed.
Print Assumptions c80_times_partial.
(** None of the Z80 rows has a penalty, so outside eZ80 mode the times added are those. *)
Theorem c80_statement_partial C n name b o i ws ops rest s :
  c_ez80 C = false -> s_opcodes s = opcode_list -> c_normal C = true -> inv s -> Forall clean ops ->
  In o opcode_list -> eqbl_ci name (op_name o) = true -> Forall MatchSpec.name_char name -> Forall blank b ->
  is_name_char (hd0 (b ++ wtext ws ++ rest)) = false ->
  In i (op_instrs o) -> spells (i_args i) ws ops -> Forall (fun w => item_ok o (fst w)) ws -> zlen (wtext ws) <= 254 -> line_over rest ->
  ~ In (op_name o, i_args i) wrong_rows ->
  match handle_opcode_or_macro C (knot C n) (name ++ b ++ wtext ws ++ rest) s with
  | Ok q s' => q = rest /\ exists j, first_like (i_args i) (op_instrs o) = Some j /\ forall c, In c (opcodes_of j) -> undocumented c = false ->
      exists u v, time_of c = Some (u, v) /\ s_mintime s' = modulo (s_mintime s + u) /\ s_maxtime s' = modulo (s_maxtime s + v)
  | Exit _ _ => False
  | _ => True
  end.
Proof.
  intros Hz Ht Hn Hs Hcl Ho Hnm Hch Hb Hx Hi Hsp Hok Hlen Hr Hw.
  pose proof (c79_instruction C n name [] b o i ws ops rest (-1) s Hn Hs Hcl (or_introl Ht)) as K. rewrite Ht, app_nil_r in K. cbn [app] in K.
  assert (Sc : suffix_code C s name [] (-1)) by (left; split; [reflexivity|]; split; [reflexivity|intros H; rewrite Hz in H; discriminate]).
  specialize (K Ho Hnm Hch Sc Hb Hx Hi Hsp Hok Hlen Hr). destruct (handle_opcode_or_macro _ _ _ s) as [q s'|? ?|?|]; auto.
  destruct K as (K1 & j & k & K2 & K3 & K4 & _). split; [exact K1|]. exists j. split; [exact K2|]. intros c Hc Hu.
  pose proof K2 as Fj. unfold first_like in Fj. apply find_some in Fj as (Hj & Ej). apply eqbl_eq in Ej.
  assert (A0 : forallb (fun o => forallb (fun i => i_adl i =? 0) (op_instrs o)) opcode_list = true) by (vm_compute; reflexivity).
  rewrite forallb_forall in A0. specialize (A0 o Ho). rewrite forallb_forall in A0. specialize (A0 j Hj). apply Z.eqb_eq in A0.
  assert (P0 : penalty (-1) (s_adl s) j = 0) by (unfold penalty; destruct (s_adl s); [exact A0|reflexivity]). rewrite P0, !Z.add_0_r in *.
  destruct (c80_times_partial o j c Ho Hj) as [T|(T & _)]; [now rewrite Ej|exact Hc| |congruence]. exists (i_min j), (i_max j). auto.
Qed.
Print Assumptions c80_statement_partial.

(** ** Cases *)
(** The hypotheses of the statement theorems. *)
Definition cfg_z : cfg := {| c_normal := true; c_counter := false; c_symtable := false; c_list := false; c_ez80 := false;
  c_case := false; c_files := fun _ => None; c_rand := fun _ => 0; c_cwd := []; c_md5 := fun _ => []; c_wrap := true |}.
Definition ready_z : st := set_opcodes opcode_list (set_sess 1 Programs.blank).
Definition counts (s : st) : list Z := [s_pos s; s_pc s; s_codesize s; s_datasize s; s_mintime s; s_maxtime s].
Example c79_case : inv ready_z /\
  match handle_opcode_or_macro cfg_z (knot cfg_z 30) (zs "Ld ( Ix+5) , later + 2 ; note") ready_z with
  | Ok q s' => counts s' = [4; 4; 4; 0; 19; 19] /\ length (s_errs s') = 0%nat | _ => False end /\
  match handle_opcode_or_macro cfg_e (knot cfg_e 30) (zs "ld.lil hl,$123456") ready with
  | Ok q s' => counts s' = [5; 5; 5; 0; 5; 5] | _ => False end /\
  match dir_fill (knot cfg_z 30) (zs "2*3,255") ready_z with Ok _ s' => counts s' = [6; 6; 0; 6; 0; 0] | _ => False end /\
  match parse_num (knot cfg_z 30) (zs "$1234+1") (set_sess 2 ready_z) with Ok (Some v) _ => v = 4661 | _ => False end /\
  match emit_word cfg_z (knot cfg_z 30) (zs "$1234+1") E_WORD None ready_z with Ok _ s' => counts s' = [2; 2; 0; 2; 0; 0] | _ => False end /\
  match parse_num (knot cfg_z 30) (zs "later+1") (set_sess 2 ready_z) with Ok None s1 => sess_fatal 2 (s_errs s1) = false | _ => False end /\
  match emit_word cfg_z (knot cfg_z 30) (zs "later+1") E_WORD None ready_z with Ok _ s' => counts s' = [2; 2; 0; 2; 0; 0] | _ => False end /\
  next_expr (34 :: zs "a\nb" ++ [34]) EXPR_DELIMS = [] /\
  match emit_word cfg_z (knot cfg_z 30) (34 :: zs "a\nb" ++ [34]) E_BYTE None ready_z with Ok _ s' => counts s' = [3; 3; 0; 3; 0; 0] | _ => False end.
Proof.
  split; [split; simpl; try (vm_compute; discriminate); repeat constructor; discriminate|]. vm_compute.
  split; [split; reflexivity|]. repeat (split; [reflexivity|]). reflexivity.
Qed.
(** The hypotheses of [c79_instruction] and [c80_statement_partial] about the statement. *)
Example c80_hypotheses : In ex_op opcode_list /\ eqbl_ci (zs "Ld") (op_name ex_op) = true /\ Forall MatchSpec.name_char (zs "Ld") /\ Forall UtilsSpec.blank (zs " ") /\
  is_name_char (hd0 (zs " " ++ wtext ex_field ++ ex_rest)) = false /\ In ex_row (op_instrs ex_op) /\
  spells (i_args ex_row) ex_field [zs "+5"; zs "later + 2 "] /\ Forall (fun w => item_ok ex_op (fst w)) ex_field /\
  zlen (wtext ex_field) <= 254 /\ line_over ex_rest /\ ~ In (op_name ex_op, i_args ex_row) wrong_rows /\ Forall clean [zs "+5"; zs "later + 2 "] /\
  opcodes_of ex_row = [[221; 54]] /\ time_of [221; 54] = Some (19, 19) /\ undocumented [221; 54] = false.
Proof.
  destruct c12_hypotheses as (_ & H2 & H3 & H4 & H5 & H6 & _).
  split. { unfold ex_op. destruct (find _ opcode_list) eqn:E; [now apply find_some in E|vm_compute in E; discriminate]. }
  split; [reflexivity|]. split; [change (zs "Ld") with [76; 100]; repeat (apply Forall_cons; [left; unfold letter_or_digit; lia|]); constructor|].
  split; [constructor; [now left|constructor]|]. split; [reflexivity|]. split; [exact H2|]. split; [exact H3|]. split; [exact H4|]. split; [exact H5|]. split; [exact H6|].
  split. { intros K. vm_compute in K. repeat destruct K as [K|K]; discriminate K || exact K. }
  split. { repeat constructor; discriminate. }
  vm_compute. split; [reflexivity|]. split; reflexivity.
Qed.
(** What a run reports. *)
Definition reported (f : st -> text) (o : outcome) : option text := match o with Done 0 _ (Some s) => Some (f s) | _ => None end.
Definition lines (l : list string) : text := List.concat (map (fun x => zs x ++ [10]) l).
Definition case79 : world := two_files ["start: ld a,(hl)"; " djnz start"; " .db 1,2,""hi"""; " .dw start,3"; " .fill 5"]%string [].
Example c79_report :
  reported counter_report (main 60 case79 [zs "-C"; zs "a.asm"; zs "a.bin"]) =
    Some (lines ["Size: 3"; "Min. execution time: 15"; "Max. execution time: 20"]%string) /\
  reported stats_report (main 60 case79 [zs "-S"; zs "a.asm"; zs "a.bin"]) =
    Some (lines ["Number of labels: 1"; "Number of defines: 10"; "Code size: 3"; "Data size: 13"; "Total size: 16"]%string).
Proof. vm_compute. split; reflexivity. Qed.
(** The reported total need not be the size of the output: an imported file is not counted. *)
Theorem c79_total_refuted :
  match main 60 (two_files [" nop"; "#import ""/w/f.inc"""]%string ["abc"]%string) [zs "-S"; zs "a.asm"; zs "a.bin"] with
  | Done 0 l (Some s) => files_of l (zs "a.bin") = Some [0; 97; 98; 99; 10] /\ u32 (s_codesize s + s_datasize s) = 1
  | _ => False
  end.
Proof. vm_compute. split; reflexivity. Qed.
Print Assumptions c79_total_refuted.
(** And asking for the count changes the output: -C records no labels and silences the problems
    that follow, so that a reference to a label is left zero and the run succeeds. *)
Theorem c79_counter_output_refuted :
  let w := two_files [" .org $9D95"; "start: jp start"]%string [] in
  output_of (main 60 w [zs "a.asm"; zs "a.bin"]) = Some (0, Some [195; 149; 157]) /\
  output_of (main 60 w [zs "-C"; zs "a.asm"; zs "a.bin"]) = Some (0, Some [195; 0; 0]).
Proof. vm_compute. split; reflexivity. Qed.
Print Assumptions c79_counter_output_refuted.
(** The three rows that are wrong, and a row without a time, in whole runs. *)
Definition timed (p : string) : option (list Z * Z) :=
  match main 60 (two_files [p] []) [zs "-C"; zs "a.asm"; zs "a.bin"] with
  | Done 0 l (Some s) => match files_of l (zs "a.bin") with Some b => Some (b, s_maxtime s) | None => None end
  | _ => None
  end.
Theorem c80_refuted :
  timed " adc a,l" = Some ([141], 7) /\ time_of [141] = Some (4, 4) /\
  timed " bit 0,(ix+1)" = Some ([221; 203; 1; 70], 23) /\ time_of [221; 203; 70] = Some (20, 20) /\
  timed " bit 7,(iy+1)" = Some ([253; 203; 1; 126], 23) /\ time_of [253; 203; 126] = Some (20, 20) /\
  timed " sub ixh" = Some ([221; 148], 0) /\ time_of [221; 148] = Some (8, 8).
Proof. vm_compute. repeat (split; [reflexivity|]). reflexivity. Qed.
Print Assumptions c80_refuted.
